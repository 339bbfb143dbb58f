{"id": "C01", "title": "Hungarian assignment is optimal on square matrices", "statement": "min_weight_perm(w) on any non-empty square matrix returns, after finitely many steps, a permutation s of the column indices whose total weight sum(w[i, s[i]]) is less than or equal to that of every other permutation (exact arithmetic).", "quantifier": "all n >= 1, all n x n weight matrices (any sign, ties included)", "why_tests_cant": "The tests compare one literal 3x3 matrix and one random 7x7 matrix; optimality, termination and tie handling range over all matrices.", "anchors": ["multimodal/lib/munkres.py: min_weight_perm, _min_weight_perm_square, BipartiteGraph, AlternateTree"]}
{"id": "C02", "title": "Hungarian assignment on rectangular matrices", "statement": "For a matrix with fewer rows than columns min_weight_perm returns an injective choice of one column per row of minimal total weight among all injective choices; with more rows than columns it returns a list with one entry per row in which every column index occurs exactly once, all other entries are None, and the assigned weight is minimal among all such partial assignments.", "quantifier": "all shapes n1 != n2 with at least one row and column, all weight matrices", "why_tests_cant": "Two literal 3x4 / 4x3 examples are tested; the padding argument must work for every shape and weight.", "anchors": ["multimodal/lib/munkres.py: min_weight_perm, reverse_function"]}
{"id": "C03", "title": "Hungarian assignment: result shape under arbitrary rounding, divergence on NaN", "statement": "Whatever rounding the additions and subtractions on weights perform, as long as comparisons behave as a total preorder (no NaN), min_weight_perm on a square matrix terminates and returns a permutation. If a NaN is compared (all comparisons false) the search never returns.", "quantifier": "all arithmetic operations on weights, all square matrices; all running times for the divergence part", "why_tests_cant": "Floating point inputs and non-termination cannot be sampled exhaustively; a test of non-termination cannot finish.", "anchors": ["multimodal/lib/munkres.py: AlternateTree.find_augmenting_path, BipartiteGraph.max_weight_matching"]}
{"id": "C04", "title": "Brute force oracle agrees with the Hungarian method", "statement": "all_perms(l) yields every rearrangement of l, each exactly once for distinct elements; min_weight_perm_brute_force(w) returns a permutation of minimal weight; weight(min_weight_perm_brute_force(w), w) == weight(min_weight_perm(w), w) == min_weight(w).", "quantifier": "all lists l, all square matrices", "why_tests_cant": "Agreement is tested on one random matrix; ties make even the existing test's list equality unsound.", "anchors": ["multimodal/lib/munkres.py: all_perms, min_weight_perm_brute_force, weight, min_weight, permutation_matrix"]}
{"id": "C05", "title": "reverse_function inverts injections; its default size never works", "statement": "reverse_function(s, size) for an injective list s of indices below size returns a list r of length size with r[j] == i iff s[i] == j, and None where j is not a value of s. Called without size it raises IndexError for every non-empty list of indices.", "quantifier": "all injective lists and sizes; all non-empty lists for the default-size failure", "why_tests_cant": "No test calls it; the claim ranges over all functions between integer intervals.", "anchors": ["multimodal/lib/munkres.py: reverse_function"]}
{"id": "C06", "title": "associate_samples keeps labels faithful", "statement": "For every result (names, labels, tuples) of associate_samples, for each position t and each modality m, the raw label of sample tuples[t][m] in modality m is names[m][labels[t]]; hence all samples in one tuple share the same label index.", "quantifier": "all label lists for any number of modalities, any set-iteration order, any outcome of every shuffle", "why_tests_cant": "The result depends on random shuffles and on the iteration order of Python sets; tests see one sample of each.", "anchors": ["multimodal/pairing.py: associate_samples, associate_labels, named_labels_to_range, organize_by_values, associate, flatten"]}
{"id": "C07", "title": "associate_samples pairs each sample at most once and loses no possible pair", "statement": "In the tuples returned by associate_samples no sample of any modality is used twice, every used index is a valid sample index, labels and tuples have the same length, labels are non-decreasing, and label index i occurs exactly min over modalities of the number of samples with label names[m][i].", "quantifier": "all inputs, all shuffles, all set orders", "why_tests_cant": "Requires reasoning about every permutation of every bucket.", "anchors": ["multimodal/pairing.py: associate_samples"]}
{"id": "C08", "title": "associate_samples rejects exactly the mismatched label sets", "statement": "associate_samples raises AssertionError iff two modalities have different numbers of distinct labels; with at least one modality it otherwise returns normally; with zero modalities it raises ValueError (unpacking).", "quantifier": "all lists of label lists", "why_tests_cant": "Error behaviour must be characterised for every input, including empty label lists.", "anchors": ["multimodal/pairing.py: associate_samples, associate_labels"]}
{"id": "C09", "title": "organize_by_values partitions its indices", "statement": "organize_by_values(l, nb_values) returns nb_values buckets; bucket v lists, in increasing order, exactly the positions (or the given indices) whose value is v; it raises IndexError iff some value is outside [-nb_values, nb_values) and values in [-nb_values, 0) land in bucket nb_values + value.", "quantifier": "all value lists, bucket counts and index lists", "why_tests_cant": "One literal list is tested; negative values and out-of-range values are never exercised.", "anchors": ["multimodal/pairing.py: organize_by_values"]}
{"id": "C10", "title": "associate_to_window labels every frame consistently", "statement": "If associate_to_window returns, the frames cover the label window from start to end, and each frame's obj is an index whose frame label equals the obj of the label sub-window found at the frame's start time; no frame index position is used twice. If the frames run out for some label it raises ValueError.", "quantifier": "all label windows, frame label lists, rates, shuffles", "why_tests_cant": "Depends on time arithmetic, random shuffles and resource exhaustion across the whole sequence of frames.", "anchors": ["multimodal/pairing.py: associate_to_window", "multimodal/lib/window.py: concat_of_frames, ConcatTimeWindow.get_subwindow_at"]}
{"id": "C11", "title": "BasicTimeWindow.get_subwindow bounds", "statement": "BasicTimeWindow.get_subwindow(a, b) succeeds iff a and b both lie within [start, end]; the result keeps obj, starts at a, ends at max(a, b), and the original window is unchanged; otherwise TimeOutOfBound.", "quantifier": "all windows and times", "why_tests_cant": "Boundary equality on both sides and reversed intervals for all times.", "anchors": ["multimodal/lib/window.py: BasicTimeWindow, TimeWindow.check_time"]}
{"id": "C12", "title": "ArrayTimeWindow.get_subwindow is the largest sample-aligned subwindow", "statement": "For a <= b inside the window, the returned window contains only samples whose interval lies in [a - TOL, b + TOL], contains every sample whose interval lies in [a, b], is a contiguous slice of the original array, and starts at the time of its first sample with the same rate.", "quantifier": "all arrays, rates > 0, start times and a, b inside the window", "why_tests_cant": "Rounding to sample indices has boundary cases for every rate/time combination.", "anchors": ["multimodal/lib/window.py: _to_approx_int, SampledTimeWindow, ArrayTimeWindow.get_subwindow"]}
{"id": "C13", "title": "WavFileTimeWindow stays consistent through every operation history", "statement": "After any sequence of move, copy and get_subwindow operations on a wav window, end == start + n_samples / rate, 0 <= first sample <= last sample <= file length, the window time-to-sample map agrees with the original file alignment shifted by the moves, and to_array_window has the same start, end, and exactly the corresponding file samples; copy is an exact clone.", "quantifier": "all operation histories, files, rates", "why_tests_cant": "Histories are unbounded; tests check two nested crops.", "anchors": ["multimodal/lib/window.py: WavFileTimeWindow"]}
{"id": "C14", "title": "Wav and array windows give the same sub-windows", "statement": "Whenever WavFileTimeWindow.get_subwindow(a, b) returns, converting it to an array window gives the same start, rate and samples as taking get_subwindow(a, b) of the array window of the whole file. The wav version raises TimeOutOfBound in cases where the array version returns an empty window: precisely when b falls before the first sample boundary at or after a.", "quantifier": "all files, rates, window times", "why_tests_cant": "Two implementations must agree for all inputs; differential tests sample only.", "anchors": ["multimodal/lib/window.py: WavFileTimeWindow.get_subwindow, ArrayTimeWindow.get_subwindow"]}
{"id": "C15", "title": "ConcatTimeWindow construction, alignment and lookup", "statement": "ConcatTimeWindow(ws) raises ValueError iff ws is empty or some consecutive pair is misaligned by more than TOL; align(ws, start) keeps order and durations, starts at start and leaves no gap or overlap so construction always succeeds on its result; get_subwindow_at(t) for t within bounds returns a window whose interval contains t up to TOL, the first one whose end is >= t.", "quantifier": "all lists of windows, all start times and query times", "why_tests_cant": "bisect over arbitrary end times, unbounded number of windows.", "anchors": ["multimodal/lib/window.py: ConcatTimeWindow.__init__, align, get_subwindow_at, _get_file_index_from_time"]}
{"id": "C16", "title": "ConcatTimeWindow.get_subwindow covers exactly the requested range", "statement": "For a concatenation of basic windows and start <= a <= b <= end, get_subwindow(a, b) returns a concatenation starting at a and ending at b (in the exactly aligned case), made of consecutive pieces of the original windows carrying the same objs, whose lookup agrees with the original's for times strictly inside; the original is unchanged.", "quantifier": "all aligned window lists, all a <= b in range", "why_tests_cant": "Every combination of boundaries hitting window ends.", "anchors": ["multimodal/lib/window.py: ConcatTimeWindow.get_subwindow"]}
{"id": "C17", "title": "slider enumerates the right windows", "statement": "slider(t0, t1, width, shift) returns windows starting at t0 + i*shift for i = 0..k; without partial all have end = start + width (snapped to t1 within tol), lie in [t0, t1] up to tol, and k is maximal; with partial the starts are exactly those strictly before t1 (up to tol) and ends are min(start + width, t1) up to tol.", "quantifier": "all intervals, widths, shifts > 0, tolerances", "why_tests_cant": "Float-like boundary conditions for all rational parameters.", "anchors": ["multimodal/lib/window.py: slider, _arange, _snap_above, _to_approx_int"]}
{"id": "C18", "title": "concat_of_frames tiles the interval", "statement": "For t0 + TOL < t1 and rate with TOL*rate < 1/2, concat_of_frames(t0, t1, rate) returns consecutive frames starting at t0 and ending exactly at t1, all but the last of duration 1/rate; the last has positive duration at most 1/rate + TOL. For t1 <= t0 it raises ValueError.", "quantifier": "all intervals and rates", "why_tests_cant": "Number of frames is unbounded; the last frame boundary is delicate.", "anchors": ["multimodal/lib/window.py: concat_of_frames"]}
{"id": "C19", "title": "Copies of windows are independent", "statement": "copy() and get_subwindow() of basic, wav and concat windows return fresh window objects: any later sequence of move() and obj assignments on the copy leaves every observable of the original unchanged and vice versa; align mutates exactly the listed windows.", "quantifier": "all object graphs and subsequent mutation histories", "why_tests_cant": "Aliasing bugs appear only for particular histories.", "anchors": ["multimodal/lib/window.py: copy, move, align, get_subwindow"]}
{"id": "C20", "title": "chose_examples picks the first examples of each label", "statement": "chose_examples(labels, label_set, number) returns, for each label of label_set in order, the positions of its first `number` occurrences in increasing order; all returned positions are distinct and valid when label_set has no duplicates; it raises ValueError iff some label occurs fewer than `number` times.", "quantifier": "all label lists, label sets and numbers", "why_tests_cant": "Tested on one shuffled list.", "anchors": ["multimodal/evaluation.py: chose_examples"]}
{"id": "C21", "title": "Nearest-neighbour classification returns the label of a closest example", "statement": "classify_NN(reco, ex, ex_labels, measure) returns one label per row of reco; the i-th is ex_labels[j] for the smallest j minimising measure(reco[i], ex[j]); it fails when there are no examples.", "quantifier": "all data matrices, labels and measures", "why_tests_cant": "Ties and arbitrary measures.", "anchors": ["multimodal/evaluation.py: classify_NN, all_distances, dists_to_found_labels"]}
{"id": "C22", "title": "Scores are fractions of matches", "statement": "found_labels_to_score(true, found) on lists of equal non-zero length is exactly (number of equal positions)/length, lies in [0, 1], is 1 iff the lists are equal and 0 iff they differ everywhere; scores_from_dists and evaluate_NN_label equal found_labels_to_score applied to classify_NN; lists of different lengths are silently truncated to the shorter.", "quantifier": "all label lists", "why_tests_cant": "All lengths and label values.", "anchors": ["multimodal/evaluation.py: found_labels_to_score, scores_from_dists, evaluate_NN_label"]}
{"id": "C23", "title": "found_labels_to_confusion records presence, not counts", "statement": "For labels in range, entry (i, j) of found_labels_to_confusion(true, found, n) is 1 if some sample with true label i was found as j and 0 otherwise; so it equals the number of times label i was classified as j (the docstring) iff no (true, found) pair repeats.", "quantifier": "all label lists and n", "why_tests_cant": "The documented counting claim fails only on repeated pairs; no test exists.", "anchors": ["multimodal/evaluation.py: found_labels_to_confusion"]}
{"id": "C24", "title": "compare_labels_given_nb compares top-k label sets", "statement": "For each row, compare_labels_given_nb is True iff the indicator of the k highest scores equals the true indicator vector, where k is the number of true labels; when scores are distinct it is True iff every true label scores higher than every false label. score_labels_given_nb is the part of the rows that are True.", "quantifier": "all score rows, all 0/1 label rows", "why_tests_cant": "Sorting and ties over all inputs.", "anchors": ["multimodal/evaluation.py: compare_labels_given_nb, compare_labels_threshold"]}
{"id": "C25", "title": "random_split produces disjoint, equal-sized, complementary splits", "statement": "For n samples and 0 < ratio <= 1 with int(ratio*n) >= 1, random_split yields int(1/ratio) splits; in each, test has int(ratio*n) elements, train and test together are a permutation of range(n); test sets of different splits are disjoint. When int(ratio*n) == 0 the first iteration raises ValueError.", "quantifier": "all n, all ratios, all shuffles", "why_tests_cant": "Random shuffles and all (n, ratio) combinations.", "anchors": ["multimodal/lib/utils.py: random_split"]}
{"id": "C26", "title": "leave_one_out enumerates each sample exactly once as test", "statement": "leave_one_out(n) yields n splits; the i-th has test == [i] and train == all other indices in increasing order.", "quantifier": "all n", "why_tests_cant": "Unbounded n.", "anchors": ["multimodal/lib/utils.py: leave_one_out"]}
{"id": "C27", "title": "Velocities and delayed differences", "statement": "delayed_velocities(d, x, 'circular')[i] == x[i] - x[(i - d) mod n] for 0 <= d <= n (for d > n, as d = n); with 'zeros' entry i is x[i] - x[i-d] for i >= d and x[i] for i < d, provided d >= 1; with d == 0 'zeros' fails for n >= 2; any other padding raises ValueError. velocities(x)[i] == x[(i+1) mod n] - x[i]. filter_cont averages each row with its neighbours, repeating borders, preserving constants and bounds.", "quantifier": "all arrays with n >= 1 rows, all delays", "why_tests_cant": "Slicing corner cases at 0, n and beyond.", "anchors": ["multimodal/lib/utils.py: delayed_velocities, velocities, filter_cont"]}
{"id": "C28", "title": "Nested list helpers", "statement": "flatten(x, k) yields the level-k elements in left-to-right order; distribute(x, values, k) replaces each level-k list y by [y + [v] for v in values] so that flatten(distribute(x, v, k), k+1) enumerates all combinations in lexicographic order; filter_bound clamps into [inf, sup] and is idempotent. distribute fails, or returns lists nested as x above level k.", "quantifier": "all nested lists of any depth", "why_tests_cant": "Arbitrary depth recursion.", "anchors": ["multimodal/lib/utils.py: flatten, distribute, meta_map, filter_bound"]}
{"id": "C29", "title": "Logger is write-once per run and keeps its key sets exact", "statement": "Under every sequence of new_run/store/store_result/store_global calls: a stored (run, key) value is never changed or lost; storing an existing key raises ValueError and changes nothing; store before any new_run raises IndexError; exp_keys is exactly the set of keys occurring in some run, result_keys a subset; get_values(key) has one entry per run, None where absent. A stored value is seen by exactly the loggers that share the run; all other values, global values, numbers of runs and registered keys stay as they were. new_run adds one empty run that no other logger shares, and changes nothing else.", "quantifier": "all call histories", "why_tests_cant": "Histories are unbounded.", "anchors": ["multimodal/lib/logger.py: Logger.new_run, store, store_result, store_global, get_values, get_last_value"]}
{"id": "C30", "title": "Logger save/load round trip", "statement": "For every logger with string keys and JSON-representable or numpy values and a filename not ending in '.npz', Logger.load after save yields the same globals, runs and exp_keys up to JSON normalisation (tuples become lists), for keys containing underscores too; with a filename ending in '.npz' and at least one array, load raises; result_keys of the loaded logger is always empty (it is stored under another attribute), so equality is lost whenever a result was stored.", "quantifier": "all loggers, keys, values, filenames, compress flags", "why_tests_cant": "Key encoding/decoding must be injective for all strings and run counts.", "anchors": ["multimodal/lib/logger.py: Logger.save, Logger.load, _split_for_save"]}
{"id": "C31", "title": "Logger save is not crash-atomic", "statement": "save writes the array archive before the JSON file. If the process stops between the two writes while overwriting an earlier save, load succeeds and may return a mixture of old scalars and new arrays that equals neither the old nor the new logger. Stopping before the first or after the last write yields the old or the new logger.", "quantifier": "all crash points, all pairs of old/new loggers", "why_tests_cant": "Crash points between file writes.", "anchors": ["multimodal/lib/logger.py: Logger.save"]}
{"id": "C32", "title": "Merging loggers concatenates their runs", "statement": "merge_experiments(loggers) raises ValueError on [] and AssertionError iff some logger has other exp_keys than the first; otherwise it returns the first logger object, mutated to contain all runs in order, with globals, key sets and filename of the first; get_values of the merged logger is the concatenation.", "quantifier": "all lists of loggers", "why_tests_cant": "All lengths and key sets.", "anchors": ["multimodal/lib/logger.py: append_exps_from_other, merge_experiments"]}
{"id": "C33", "title": "prepare aligns modalities and isolates examples", "statement": "After MultimodalExperiment.prepare succeeds, row i of every modality's data comes from samples with the same label labels[i]; the example rows contain exactly one sample of each label; no example row appears among the remaining data; examples and remaining rows together are all paired samples (first 200 in debug mode).", "quantifier": "all loaders' labels and data, all shuffles, both debug modes", "why_tests_cant": "Random pairings and arbitrary data sets.", "anchors": ["multimodal/experiment.py: prepare, _set_labels_and_prepare_data, _set_data_and_labels_for_examples", "multimodal/evaluation.py: chose_examples"]}
{"id": "C34", "title": "Train, test and example sets never overlap during a run", "statement": "For every run performed by run(), the logged train and test indices are disjoint, together they are all non-example samples, and the number of runs is n for leave-one-out, 1 for 'single' and int(1/ratio) for a ratio run mode.", "quantifier": "all sample counts, run modes, shuffles", "why_tests_cant": "Random splits and unbounded sample counts.", "anchors": ["multimodal/experiment.py: run, _perform_one_run, get_generator", "multimodal/lib/utils.py: random_split, leave_one_out"]}
{"id": "C35", "title": "Result keys of one run are unique unless modality names clash", "statement": "For modality names that contain neither '_' nor '2' and are different from 'bis', 'frob', 'cosine', all keys stored by TwoModalitiesExperiment in one run are distinct, so evaluation never raises; a modality named 'frob' makes every run raise ValueError. ThreeModalitiesExperiment keys are distinct for three such names; with exactly two modalities it always raises ValueError.", "quantifier": "all numbers and names of modalities", "why_tests_cant": "String concatenation injectivity over all names.", "anchors": ["multimodal/experiment.py: _get_exp_key, _get_score_key, _get_found_key, _tested_combinations"]}
{"id": "C36", "title": "Experiment parameters survive serialization", "statement": "from_serialized(json(serialize_parameters(e))) has the same modalities in the same order, k, iteration counts, coefs, shuffle flag, run mode and debug flag, and loaders of the same dataset with equal parameters (object label sets equal as sets).", "quantifier": "all experiments over the three known datasets", "why_tests_cant": "All parameter values and orders.", "anchors": ["multimodal/experiment.py: serialize_parameters, from_serialized, get_loader", "multimodal/db/objects.py: ObjectsLoader.serialize", "multimodal/db/acorns.py: Year1Loader"]}
{"id": "C37", "title": "Default modality coefficients balance the modalities", "statement": "When coefs is None and every modality has non-zero average row sum, _set_coefs chooses coefficients such that each weighted modality has average row sum exactly 1; given coefficients are left unchanged.", "quantifier": "all data matrices", "why_tests_cant": "All matrices.", "anchors": ["multimodal/experiment.py: _set_coefs", "multimodal/learner.py: stack_data"]}
{"id": "C38", "title": "Modality blocks partition the stacked feature axis", "statement": "For distinct modality names the axis ranges are contiguous, disjoint, cover [0, sum(dims)) in order; slicing the stacked data at get_axis_range(m) gives back coef*data of m; get_stacked_dicos of all modalities in order is the whole dictionary; an unknown modality raises ValueError.", "quantifier": "all numbers of modalities and dimensions", "why_tests_cant": "All dimension lists.", "anchors": ["multimodal/learner.py: MultimodalLearner.get_axis_range, get_dico, get_stacked_dicos, stack_data"]}
{"id": "C39", "title": "Cross-modal reconstruction composes and keeps shapes and signs", "statement": "modalities_to_modalities equals reconstruct_modalities after reconstruct_internal_multi; the result has one row per test sample and the destination dimension as columns, its blocks are the per-modality reconstructions, and it is non-negative for non-negative dictionary and data; data with a wrong number of columns raises AssertionError.", "quantifier": "all learners, data, iteration counts >= 1", "why_tests_cant": "All shapes and values.", "anchors": ["multimodal/learner.py: reconstruct_internal_multi, reconstruct_modalities, modalities_to_modalities"]}
{"id": "C40", "title": "NMF keeps factors non-negative, in shape, and locks zeros", "statement": "For non-negative X and initial factors, every iteration of fit/transform keeps W and H non-negative and of the same shape, and entries that are 0 stay 0.", "quantifier": "all matrices, all numbers of iterations", "why_tests_cant": "All iterates of all inputs.", "anchors": ["multimodal/lib/nmf.py: fit_transform, _update, _updated_W, _updated_H, _Q"]}
{"id": "C41", "title": "NMF coefficient update never increases the smoothed divergence", "statement": "For non-negative X, W and a dictionary H whose rows sum to 1, one coefficient update (transform) does not increase sum((X+eps)*log((X+eps)/(WH+eps)) - X + WH).", "quantifier": "all matrices and eps > 0", "why_tests_cant": "An inequality over all real matrices.", "anchors": ["multimodal/lib/nmf.py: _update, _updated_W, _Q, error"]}
{"id": "C42", "title": "NMF dictionary rows are normalised", "statement": "After every update with _fit, each dictionary row sum is s/(s+1e-16) for its un-normalised sum s, hence in [0, 1), and equal to 1 up to relative error 1e-16/s; zero rows stay zero.", "quantifier": "all matrices and iterations", "why_tests_cant": "All iterates.", "anchors": ["multimodal/lib/nmf.py: _updated_H", "multimodal/lib/array_utils.py: normalize_sum"]}
{"id": "C43", "title": "fit_transform stopping rule and reported errors", "statement": "The list returned with return_errors is strictly decreasing by at least tol*n_samples*n_features at each step, has at most max_iter entries; the weights and scale_W arguments do not influence the result; max_iter = 0 raises UnboundLocalError. The loop ends only when max_iter updates were made or when the divergence that is reached is less than tol*n_samples*n_features below the last one of the list; the warning is written exactly if this threshold is positive and the last iteration was started.", "quantifier": "all data, tolerances, iteration limits", "why_tests_cant": "All trajectories.", "anchors": ["multimodal/lib/nmf.py: fit_transform"]}
{"id": "C44", "title": "Sparse and dense NMF errors agree", "statement": "For the same matrix given dense or sparse, KLdivNMF.error returns the same value, and _special_sparse_dot(a, b, ref) equals a.b masked to the non-zero entries of ref; the sparse Q differs from the dense Q only on zero entries of X, where it is 0 instead of eps/(WH+eps).", "quantifier": "all matrices and factors", "why_tests_cant": "All sparsity patterns.", "anchors": ["multimodal/lib/nmf.py: error, _special_sparse_dot, _Q"]}
{"id": "C45", "title": "transform does not change components but changes later fits", "statement": "transform never changes components_; after a transform, a subsequent fit on the same object starts from the previous components instead of a fresh random dictionary and raises AssertionError if the number of features differs.", "quantifier": "all call histories of one KLdivNMF object", "why_tests_cant": "History dependence.", "anchors": ["multimodal/lib/nmf.py: transform, _init, fit"]}
{"id": "C46", "title": "Generalised KL divergence bounds", "statement": "generalized_KL(x, x) == 0; for non-negative arrays of n entries generalized_KL(x, y) >= -n*eps; it can be negative (x = 1, y = 1 - eps); for x = 0 it is sum(y); rev_kl_div swaps arguments and sym_kl_div is symmetric.", "quantifier": "all non-negative arrays", "why_tests_cant": "Real inequality; the existing test asserts non-negativity on one random sample, which is false in general.", "anchors": ["multimodal/lib/metrics.py: generalized_KL, kl_div, rev_kl_div, sym_kl_div"]}
{"id": "C47", "title": "Entropy bounds", "statement": "For every probability vector p of length n, 0 <= entropy(p) <= log n, with 0 for deterministic vectors, log n for the uniform vector, and invariance under permutation and padding with zeros.", "quantifier": "all probability vectors", "why_tests_cant": "Real inequalities.", "anchors": ["multimodal/lib/metrics.py: entropy"]}
{"id": "C48", "title": "Mutual information identities", "statement": "For every joint histogram with total 1, mutual_information >= 0, equals H(rows)+H(columns)-H(joint), is symmetric under transposition and 0 for independent variables.", "quantifier": "all joint distributions of any shape", "why_tests_cant": "Real inequalities.", "anchors": ["multimodal/lib/metrics.py: mutual_information"]}
{"id": "C49", "title": "Conditional entropy bounds", "statement": "For every joint histogram with total 1, 0 <= conditional_entropy(h, axis) <= entropy of the other marginal, and equals joint entropy minus the entropy of the conditioning marginal.", "quantifier": "all 2-d joint distributions, both axes", "why_tests_cant": "Real inequalities.", "anchors": ["multimodal/lib/metrics.py: conditional_entropy"]}
{"id": "C50", "title": "Cosine similarity and Euclidean distance", "statement": "cosine_similarity lies in [-1, 1] (in [0,1] for non-negative vectors), is 0 if either vector is 0, symmetric and invariant under positive scaling; frobenius is a metric (non-negative, zero iff equal, symmetric, triangle inequality).", "quantifier": "all real vectors", "why_tests_cant": "Real inequalities.", "anchors": ["multimodal/lib/metrics.py: cosine_similarity, cosine_diff, frobenius"]}
{"id": "C51", "title": "Hoyer sparseness lies in [0,1]", "statement": "hoyer_sparseness of any array with at least two entries along the axis lies in [0, 1]; it is 1 for one-hot or zero vectors and 0 for constant vectors up to eps effects.", "quantifier": "all real arrays", "why_tests_cant": "Real inequalities.", "anchors": ["multimodal/lib/metrics.py: hoyer_sparseness, real_sparsity"]}
{"id": "C52", "title": "GrowingLILMatrix equals its rows padded with zeros", "statement": "After any sequence of add_row calls, the matrix has one row per call, as many columns as the longest row so far, and its dense value is the rows right-padded with zeros.", "quantifier": "all sequences of rows", "why_tests_cant": "Unbounded histories.", "anchors": ["multimodal/lib/array_utils.py: GrowingLILMatrix.add_row"]}
{"id": "C53", "title": "normalize_features and normalize_sum", "statement": "normalize_features returns exactly the columns with non-zero sum, in order, each divided by its sum (so each sums to 1), identically for dense and sparse inputs, leaving the input's values unchanged; normalize_sum along an axis gives sums s/(s+eps) and raises ValueError for an axis out of range.", "quantifier": "all matrices", "why_tests_cant": "All sparsity patterns and values.", "anchors": ["multimodal/lib/array_utils.py: normalize_features, normalize_sum"]}
{"id": "C54", "title": "coocurrences counts lagged pairs exactly", "statement": "For quantized values below n and lag >= 1, entry b*n + a of coocurrences(q, n, lag) is the number of times t with q[t] == a and q[t+lag] == b; the vector has length n^2 and total max(0, len(q) - lag); lag 0 fails for len(q) >= 2; compute_coocurrences and hac concatenate these over lags and streams.", "quantifier": "all quantized series, codebook sizes and lags", "why_tests_cant": "All series.", "anchors": ["multimodal/features/hac.py: coocurrences, compute_coocurrences, hac"]}
{"id": "C55", "title": "Vector quantization histograms", "statement": "get_histos (hard) gives one-hot rows at a nearest centroid; soft_associate gives rows of positive weights summing to 1, larger for closer centroids (alpha > 0); associate returns the first nearest centroid.", "quantifier": "all vectors and centroids", "why_tests_cant": "All reals.", "anchors": ["multimodal/lib/vector_quantization.py: square_distances, associate, soft_associate, get_histos"]}
{"id": "C56", "title": "compact/un_compact round trip and Python 3 iterator exhaustion", "statement": "un_compact_examples(*compact_examples(xs)) == xs for every non-empty list of arrays with equal column count. In db_to_VQ_hist_matrix each result row sums to 1 under list-returning map (Python 2); under Python 3 the map iterator is consumed by its first traversal, so the grouping step sees no data and the call raises.", "quantifier": "all example lists", "why_tests_cant": "All list lengths.", "anchors": ["multimodal/features/angle_histograms.py: compact_examples, un_compact_examples, db_to_VQ_hist_matrix"]}
{"id": "C57", "title": "Sound database registries", "statement": "Under every history of add_tag/get_tag_add/add_speaker/add_record: tags are distinct and tag_id[tags[i]] == i; speakers are distinct and records, speakers and infos have the same length; ids never change; get_tag_add is idempotent; duplicates raise ValueError without effect; add_record accepts the invalid tag id len(tags) (off by one). Tags never touch records or speakers, and records never touch tags or speakers, whether the method returns or raises. sort orders the records of each speaker by audio file, stably. A negative speaker id is accepted and counts from the last speaker.", "quantifier": "all operation histories", "why_tests_cant": "Histories.", "anchors": ["multimodal/db/models/sound.py: DataBase"]}
{"id": "C58", "title": "Sound database JSON round trip", "statement": "Loading (into an empty database) the JSON written by write_json restores root, tags with the same ids, speakers with infos in order, and each speaker's records with the same tags, transcription, style and audio, stably sorted by audio file name.", "quantifier": "all databases with valid tags and comparable audio names", "why_tests_cant": "All contents.", "anchors": ["multimodal/db/models/sound.py: write_json, load_from, Record.to_dict, Record.from_dict"]}
{"id": "C59", "title": "Record comparison operators are inconsistent on equal audio", "statement": "Record < is a strict weak order on audio names; but for two distinct records with the same audio, both r1 > r2 and r2 > r1 hold while neither r1 < r2 nor r2 < r1, so > is not the converse of <.", "quantifier": "all pairs of records", "why_tests_cant": "All name pairs.", "anchors": ["multimodal/db/models/sound.py: Record.__lt__, __le__, __gt__, __ge__"]}
{"id": "C60", "title": "Motion database export/load and extend", "statement": "load_from_npz after export(data_type='npz') restores name, marker names, and all records in order; extend appends the other records, or raises leaving the database unchanged when marker names or descriptions of occurring labels differ; export with an unknown data_type writes nothing and raises ValueError; integer-keyed label descriptions come back with string keys.", "quantifier": "all databases", "why_tests_cant": "All contents.", "anchors": ["multimodal/db/models/kinect_motion.py: MotionDatabase"]}
{"id": "C61", "title": "Object frames and per-frame histograms", "statement": "A frame with exactly four views is stored with five views; read_features assigns lines in reverse file order; by-frame histograms are the mean of that frame's rows for every frame with at least one view; to_dict/from_dict is the identity on constructed frames.", "quantifier": "all frames, files and feature matrices", "why_tests_cant": "All numbers of views.", "anchors": ["multimodal/db/models/objects.py: Frame, ObjectDB"]}
{"id": "C62", "title": "ACORNS blacklist keeps features and labels aligned", "statement": "Removing blacklisted records from the database and from the feature matrix removes the same positions, so row i of get_data corresponds to entry i of get_labels; feature_file_name is injective; check_speaker accepts speaker == n_speakers.", "quantifier": "all record lists, feature matrices and blacklists", "why_tests_cant": "All lists.", "anchors": ["multimodal/db/acorns.py: load, load_features, Year1Loader, check_speaker, feature_file_name"]}
{"id": "C63", "title": "Quaternion algebra and base-frame invariance of joint angles", "statement": "quaternion_multiply is associative with unit [0,0,0,1] and multiplicative norm; quaternion_inverse is a two-sided inverse of non-zero quaternions; get_angles is unchanged when all frames of a sample are rotated by a common non-zero quaternion and when quaternions are rescaled by a positive factor.", "quantifier": "all quaternions and samples", "why_tests_cant": "Real algebra.", "anchors": ["multimodal/lib/transformations.py: quaternion_multiply, quaternion_inverse, quaternion_matrix", "multimodal/features/angle_histograms.py: get_angles"]}
{"id": "C64", "title": "Rotation matrices and Euler angles", "statement": "quaternion_matrix of a quaternion with squared norm >= eps is orthogonal with determinant 1 and is a homomorphism for quaternion_multiply; euler_matrix(euler_from_matrix(R, 'sxyz'), 'sxyz') == R for every rotation matrix R outside the gimbal-lock threshold.", "quantifier": "all quaternions / rotation matrices", "why_tests_cant": "Real algebra and trigonometry.", "anchors": ["multimodal/lib/transformations.py: quaternion_matrix, euler_matrix, euler_from_matrix, euler_from_quaternion"]}
{"id": "C65", "title": "KDE binning conserves mass", "statement": "For samples within bounds and at least two bins, get_bins_1d weights are non-negative and sum to 1/delta_x (so integrate to 1); wrong bounds or fewer than two bins raise ValueError; the same holds in two dimensions.", "quantifier": "all sample sets, bounds and bin counts", "why_tests_cant": "All real samples.", "anchors": ["multimodal/lib/kde1d.py: get_bins_1d", "multimodal/lib/kde2d.py: get_bins_2d"]}
{"id": "C66", "title": "compare_labels_threshold accepts exactly the right rows", "statement": "For equal shapes, row i of compare_labels_threshold(reco, true, thr) is True iff for every column the true label is 1 and the score is at least thr, or the true label is 0 and the score is below thr; labels other than 0 and 1 never match. Arrays of unequal shapes raise ValueError; score_labels_threshold is the part of the rows that are True.", "quantifier": "all score matrices, integer label matrices and thresholds", "why_tests_cant": "Boundary scores equal to the threshold and non-binary labels are not covered by examples.", "anchors": ["multimodal/evaluation.py: compare_labels_threshold"]}
{"id": "C67", "title": "evaluate_label_reco is the fraction of rows whose best label is right", "statement": "For an activation matrix with at least one column, evaluate_label_reco raises AssertionError iff the number of labels differs from the number of rows; otherwise it returns the exact fraction of rows whose first maximal column is the true label.", "quantifier": "all activation matrices (any totally ordered scores, with ties) and label lists", "why_tests_cant": "Ties and shape mismatches range over all matrices.", "anchors": ["multimodal/evaluation.py: evaluate_label_reco"]}
{"id": "C68", "title": "meta_map acts exactly on its level", "statement": "meta_map(n, f) applied to nested lists (iterators consumed into lists) keeps the nesting above level n and replaces each level-n element x by f(x): flatten(meta_map(n, f)(x), n) is map(f, flatten(x, n)). It raises TypeError only if something above level n is not a list.", "quantifier": "all nested lists, levels and functions", "why_tests_cant": "Arbitrary depth and shape.", "anchors": ["multimodal/lib/utils.py: meta_map"]}
{"id": "C69", "title": "manualy_normalize is the affine map of the bounds to [0, 1]", "statement": "For low != up manualy_normalize sends low to 0, up to 1, values within the bounds into [0, 1] and is inverted by y*(up-low)+low; for equal bounds it is x - low.", "quantifier": "all bounds and values (exact arithmetic)", "why_tests_cant": "Includes degenerate bounds for all values.", "anchors": ["multimodal/lib/utils.py: manualy_normalize"]}
{"id": "C70", "title": "A failed save destroys the previous save", "statement": "If Logger.save raises TypeError because some value cannot be written as JSON, the earlier JSON file has already been emptied: a following load raises ValueError whatever had been saved before.", "quantifier": "all loggers holding a value json refuses, all previous file contents", "why_tests_cant": "The set of refused values, logger contents and earlier files is unbounded; the tests never save twice.", "anchors": ["multimodal/lib/logger.py: Logger.save, Logger.load"]}
{"id": "C71", "title": "Cutting a concatenation of sampled windows commutes with loading the samples", "statement": "For array and wav windows of one rate that cover an interval without gap, and start <= a <= b <= end, get_subwindow(a, b) followed by to_array_window gives the same start, end, rate and samples as to_array_window followed by get_subwindow(a, b), whatever number of windows the range crosses; the only exception is that the concatenation raises TimeOutOfBound when the array version gives an empty window whose start is after b.", "quantifier": "all lists of windows, files, rates, times", "why_tests_cant": "Every position of both bounds relative to window and sample boundaries, for every number of windows.", "anchors": ["multimodal/lib/window.py: ConcatTimeWindow.get_subwindow, to_array_window, ArrayTimeWindow.concatenate"]}
{"id": "C72", "title": "A concatenation of wav files contains their samples in order", "statement": "concat_from_list_of_wavs(files, start) on readable files of the same rate gives a window starting at start (0 by default) whose samples are those of the files one after the other; save_wav writes exactly these samples at this rate; if two files have different rates, loading the samples raises ValueError.", "quantifier": "all lists of files and starts", "why_tests_cant": "Unbounded number and length of files.", "anchors": ["multimodal/lib/window.py: concat_from_list_of_wavs, save_wav, ArrayTimeWindow.concatenate"]}
{"id": "C73", "title": "Sample times are preserved by cutting", "statement": "get_times gives the middle of each sample interval, and the times of the samples of a sub-window are the times these samples had in the original window.", "quantifier": "all windows, rates and bounds", "why_tests_cant": "All combinations of rates and bounds.", "anchors": ["multimodal/lib/window.py: SampledTimeWindow.get_times, ArrayTimeWindow.get_subwindow"]}
{"id": "C74", "title": "all_distances compares every pair of rows", "statement": "For two matrices with rows of the same length, all_distances(reco, examples, measure) with frobenius, generalized_KL and cosine_diff is the matrix whose entry (i, j) is the measure of row i of the first and row j of the second matrix.", "quantifier": "for all real matrices of n x d and m x d elements, all n, m, d", "why_tests_cant": "The broadcasting of two matrices to three axes and the reduction along the last one must hold for every pair of sizes and all contents; tests use a few small arrays.", "anchors": ["multimodal/evaluation.py:103-106", "multimodal/lib/metrics.py:18-86"]}
{"id": "C75", "title": "NMF coefficients never exceed the mass of the sample", "statement": "After fit or transform the coefficients of a sample sum to at most the sum of its data plus 1e-8 per feature, whatever the dictionary; so a dictionary whose rows sum to at most c reconstructs at most c times that mass (a sliced dictionary cannot recover its own data).", "quantifier": "all non-negative data, dictionaries, numbers of iterations", "why_tests_cant": "An inequality over all real matrices and all iterates.", "anchors": ["multimodal/lib/nmf.py: fit_transform, transform, _updated_W"]}
{"id": "C76", "title": "NMF scale keeps the product", "statement": "KLdivNMF.scale(W, H, factors) multiplies the columns of W by factors + eps and keeps the product W.H, except for one component, where np.squeeze removes the only axis and IndexError is raised.", "quantifier": "all matrices and factors with factors + eps not zero", "why_tests_cant": "All matrices and sizes; the failing size is a corner case.", "anchors": ["multimodal/lib/nmf.py: scale, _scale"]}
{"id": "C77", "title": "Training gives a usable non-negative dictionary", "statement": "MultimodalLearner.train on matrices with the declared sizes and non-negative values stores a non-negative dictionary with k rows and one column per stacked feature; each row sums to s/(s+1e-16) for some s >= 0, so it is below 1 and zero only for a dead atom. A matrix of a wrong size raises AssertionError and leaves the learner unchanged. A missing matrix should raise too, but it does not: the dictionary is silently too small.", "quantifier": "all modalities, sizes, data, random initial values and iteration counts >= 1", "why_tests_cant": "All sizes, real matrices and random initialisations.", "anchors": ["multimodal/learner.py: train, stack_data", "multimodal/lib/nmf.py: fit, _normalize_sum"]}
{"id": "C78", "title": "An experiment runs to the end and logs the results of nearest-neighbour tests", "statement": "For a well-formed experiment (distinct clean names, one row of non-negative numbers per label, at most ten labels with the same number in each modality, enough samples for the run mode) run() does not raise. Every run of the generator is logged. Its dictionary has the train and test indices, the dictionary of a learner trained with exactly the training rows, and for each combination of modalities and each measure the score of the labels of the nearest examples, computed from representations of the test rows and of the example rows; each score lies in [0, 1].", "quantifier": "all experiments, data, run modes, shuffles, random numbers of the factorisations", "why_tests_cant": "All data, names, splits and random draws; composition of pairing, splitting, training, reconstruction, classification and logging.", "anchors": ["multimodal/experiment.py: run, prepare, _perform_one_run, _evaluate, _get_all_transformations, _get_all_internals", "multimodal/learner.py: train, reconstruct_internal", "multimodal/evaluation.py: classify_NN"]}
{"id": "C79", "title": "Codebooks built by splitting have exactly k centroids", "statement": "iterative_kmeans(data, k) makes at most k - 1 splits and returns exactly max(1, k) centroids of the dimension of the data; every split removes the centroid of a most populated cluster and adds two points symmetric around it; build_codebook refuses an unknown mode.", "quantifier": "all non-empty data arrays, k, alpha, and every vq, svd and kmeans2 respecting their shapes", "why_tests_cant": "Tests run one random data set and two values of k.", "anchors": ["multimodal/features/hac.py: iterative_kmeans, build_codebook"]}
{"id": "C80", "title": "Conversions between Euler angles, quaternions and matrices agree", "statement": "For each of the 24 named axis sequences euler_matrix is the product of the three elementary rotations that the name announces (fixed axes: later turns on the left; rotating axes: on the right); quaternion_from_euler is a unit quaternion whose quaternion_matrix is that matrix; quaternion_from_matrix and quaternion_matrix are inverse to each other up to norm and sign.", "quantifier": "all angles, axis sequences, rotation matrices and quaternions of squared norm >= eps", "why_tests_cant": "Trigonometric identities over the reals for all angles and all branches of quaternion_from_matrix.", "anchors": ["multimodal/lib/transformations.py: euler_matrix, quaternion_from_euler, quaternion_from_matrix, quaternion_matrix"]}
{"id": "C81", "title": "Smoothing never creates mass", "statement": "gaussian_kde_1d on samples within bounds with a non-zero bandwidth returns the grid and 2n-2 non-negative values whose sum is exactly that of the bins (1/delta); gaussian_kde_2d returns an n by n array of non-negative values whose total is at most that of the bins (the central part of the full convolution).", "quantifier": "all samples, bounds, bandwidths and bin counts", "why_tests_cant": "All real samples, bandwidths and grid sizes.", "anchors": ["multimodal/lib/kde1d.py: gaussian_kde_1d", "multimodal/lib/kde2d.py: gaussian_kde_2d"]}
{"id": "C82", "title": "Sign of the estimated divergence", "statement": "kde_KL_divergence_1d returns the opposite of the trapezoid integral of p ln(p/q) between the two smoothed densities; it is bounded above by the difference of the end values plus an epsilon term, it is 0 for identical samples, and it can be smaller than -1 (a Kullback-Leibler divergence would not be negative).", "quantifier": "all pairs of sample lists, bandwidths and bin counts", "why_tests_cant": "Statement on the sign of an integral over all inputs.", "anchors": ["multimodal/lib/kde1d.py: kde_KL_divergence_1d"]}
{"id": "C83", "title": "Keyword co-occurrence counts", "statement": "When every tag of every record exists, count_by_keywords returns an n by n matrix whose entry (t,u), t different from u, is the sum over records of (occurrences of t) times (occurrences of u); it is symmetric with a zero diagonal; size() is the number of records yielded by all_records.", "quantifier": "all databases", "why_tests_cant": "All databases and tag lists.", "anchors": ["multimodal/db/models/sound.py: count_by_keywords, size, all_records"]}
{"id": "C84", "title": "Database statistics cannot be printed", "statement": "DataBase.statistics raises TypeError on every database with at least one speaker (it joins integers), and returns only for a database with no speaker and no tag.", "quantifier": "all databases", "why_tests_cant": "A claim that a method always fails.", "anchors": ["multimodal/db/models/sound.py: statistics"]}
{"id": "C85", "title": "Audio paths", "statement": "For plain speaker and file names, get_audio_path is root/[WAV_DIR/]speaker/audio, and two records of a database with the same path have the same speaker name and the same audio file name.", "quantifier": "all roots, speaker names and audio names", "why_tests_cant": "All strings.", "anchors": ["multimodal/db/models/sound.py: Record.get_audio_path, DataBase.get_wav_dir"]}
{"id": "C86", "title": "ACORNS database built from the original files", "statement": "from_ACORNS_root on a new database, when every XML file can be read, gives the speakers of that year, one record per file under its speaker, sorted stably by audio file name, whose tag numbers resolve to the words of the file, whose audio file has the .wav extension; the tags are exactly the words that occur; the database can be saved. A wrong year raises and changes nothing; a second call on the same database raises ValueError after changing the root only.", "quantifier": "all contents of the XML files, both years", "why_tests_cant": "All corpora: any number of files, words and repetitions.", "anchors": ["multimodal/db/models/acorns.py: AcornsDB.from_ACORNS_root, _parse_record, get_speakers"]}
{"id": "C87", "title": "Motion databases exported as text or for Matlab", "statement": "export(data_type='txt') makes the two directories, writes a JSON file naming the data directory with the labels of every record in order, and writes record i to the file i.txt (the array itself if it has two dimensions, its extra dimensions joined with force_flat); the first array that cannot be written raises ValueError with the files of the previous records written and no other file changed; such an export cannot be loaded by load_from_npz (KeyError). export(data_type='mat') writes one file with all arrays and labels in order.", "quantifier": "all databases, destinations and file contents before the export", "why_tests_cant": "Any number of records and shapes, any position of the first bad array.", "anchors": ["multimodal/db/models/kinect_motion.py: MotionDatabase.export, save_data_txt, create_text_subdirs"]}
{"id": "C88", "title": "Object loader: rows and labels stay aligned", "statement": "ObjectsLoader.get_data and get_labels select the same frames in the same order, namely the frames whose object name is among the wanted labels, in database order: row q of the data is the concatenation over the asked features of the by-frame histogram row of that frame, and label q is its object name; this holds after any sequence of calls. A single frame whose label has no name makes the loader fail, even when no such label is wanted.", "quantifier": "all databases, features, wanted labels and sequences of calls", "why_tests_cant": "Any number of frames, any selection, any order of calls.", "anchors": ["multimodal/db/objects.py: ObjectsLoader", "multimodal/db/models/loader.py: Loader"]}
{"id": "C89", "title": "Object databases: building, saving and loading", "statement": "ObjectDB.build_from keeps, in file order, exactly the frames of the statistics file whose histogram file exists and has five lines per view, and the by-frame matrix of each feature holds for every kept frame the mean of its view vectors padded with zeros to the longest; it raises IndexError when no frame is kept or the last kept one has no view. save then load gives back frames, names, histograms and by-frame matrices, and touches only its two files; save before the by-frame matrices are computed raises TypeError and writes no matrix.", "quantifier": "all statistics files, feature files, databases and file systems", "why_tests_cant": "Any number of frames, views and vector lengths.", "anchors": ["multimodal/db/models/objects.py: ObjectDB.build_from, save, load"]}
{"id": "C90", "title": "Similarity plots: each point belongs to its window", "statement": "In a ScorePlot, whatever the part of the time axis shown, the points drawn are exactly the sliding windows whose middle is inside it, in order: point q is at the middle of its window (minus the origin of relative time when asked), with the row of similarities computed for that same window, and the segment of its best label is the window clipped to the axis. Fewer rows than windows raise IndexError; extra rows are ignored. plot_one_sentence shows exactly the windows whose middle is in the sentence, with times from its beginning.", "quantifier": "all record windows, sliding windows, similarity rows, settings and axis bounds", "why_tests_cant": "Any number of windows, any bounds, any settings; a drawn figure is not compared by tests.", "anchors": ["multimodal/plots.py: ScorePlot.draw, filter_windows, relative_time, plot_one_sentence"]}
{"id": "C91", "title": "Similarity plots: every part of the recordings can be drawn", "statement": "For consecutive recordings, any part of the axis inside them can be drawn: the sentences written and the vertical lines are those of the recordings that meet this part, in order, each at its own place. Any part that starts before or ends after the recordings raises TimeOutOfBound. It follows that InteractivePlot, whose first axis is [0, 20], cannot be created for recordings shorter than 20 seconds, and that moving its sliders beyond the end raises.", "quantifier": "all recordings, windows, bounds and slider positions", "why_tests_cant": "Any recordings and positions; interactive.", "anchors": ["multimodal/plots.py: ScorePlot, InteractivePlot", "multimodal/lib/window.py: ConcatTimeWindow.get_subwindow"]}
{"id": "C92", "title": "Similarity plots: names of the parameters are exchanged", "statement": "InteractivePlot and plot_one_sentence hand their parameters to ScorePlot by position, while the names example_labels and similarities are in the other order: a caller that follows the names (by keyword) gets TypeError, whatever the data; so does a caller that leaves plot_rc to its default.", "quantifier": "all data", "why_tests_cant": "For every data, not one call.", "anchors": ["multimodal/plots.py: InteractivePlot.__init__, plot_one_sentence, ScorePlot.__init__"]}
{"id": "C93", "title": "Sliding evaluation script: tested records and confusion matrix", "statement": "In plot_image_sound_eval_sliding.py the logged test numbers count the samples that are not examples, but are used as positions in the whole pairing. The tested sample number i with label l is tuple i + l + 1, so the record taken for a tested sample is never the tested one; at least one tested record is always written among the train transcriptions. The label read is at most the true one, and right if and only if more samples of the label come before it than there are smaller labels. The matrix counts the pairs (label read, label found) exactly; for a recognition without mistake it is diagonal if and only if that condition holds for every tested sample.", "quantifier": "all experiments that can be prepared, all randomness, all test sets, all found labels", "why_tests_cant": "Holds for every data set and every random choice; the script has no test.", "anchors": ["samples/plot_image_sound_eval_sliding.py: test_idx, test_records, test_labels, confusion", "multimodal/experiment.py: MultimodalExperiment._set_labels_and_prepare_data"]}
{"id": "C94", "title": "Statistics of words and labels", "statement": "word_histo_by_label of plot_image_sound_eval_sliding.py accepts exactly non-empty lists of sentences with as many labels. Its words are the labels, then every other word said, once each, in alphabetical order; upper case and punctuation do not matter. For every word and label, the table is the share of the records with both, the word only, the label only, neither. The information of every pair is computed without division by zero, is never negative, and is zero exactly when the word and the label are independent.", "quantifier": "all lists of sentences and labels, all orders of the set of labels", "why_tests_cant": "Counts, independence and the absence of division by zero hold for every data set, not only for one transcription.", "anchors": ["samples/plot_image_sound_eval_sliding.py: word_histo_by_label, get_words", "multimodal/lib/metrics.py: mutual_information"]}
{"id": "C95", "title": "Information of coefficients about labels and its plot", "statement": "mutual_information_by_label of plot_info_matrix.py puts the values of a coefficient into ten bins of the interval of all its values, counts for every label the samples with it and without it in every bin, loses no sample, and gives the mutual information of that table: one non-negative number for each label, zero exactly when bins and label are independent; without sample it raises ValueError. plot_mutual_info shows every column exactly once under its own number, first the columns of an assignment of distinct coefficients to labels of greatest total information, then the others in their order; with more labels than coefficients it raises IndexError.", "quantifier": "all labels, all values of coefficients, all matrices", "why_tests_cant": "Optimality over all assignments and exact counts for all real values (bounds of bins, equal values) cannot be enumerated.", "anchors": ["samples/plot_info_matrix.py: internal_histograms_by_label, _sum_all_but_i, mutual_information_by_label, plot_mutual_info", "multimodal/lib/metrics.py: mutual_information", "multimodal/lib/munkres.py: min_weight_perm"]}
{"id": "C96", "title": "Restoring an experiment from its log", "statement": "Every run of an experiment, successful or not, stores global values under thirteen known names only. The names 'label-pairing' and 'sample-pairing' asked for by plot_info_matrix.py are not among them: get_value raises KeyError for every run, also after saving and loading. Under 'label_pairing', 'sample_pairing', 'examples' and 'modalities' the values of the run are found, also after saving and loading, and with them the steps of the script restore exactly the coefficients, labels and data that the run used.", "quantifier": "all experiments, all random choices, all outcomes of the run", "why_tests_cant": "The absence of a name and the equality of restored data concern every experiment and every random choice; the script is not tested.", "anchors": ["samples/plot_info_matrix.py: label_assoc, sample_assoc, labels", "multimodal/experiment.py: _set_labels_and_prepare_data, _set_data_and_labels_for_examples, prepare, run", "multimodal/lib/logger.py: get_value"]}
{"id": "C97", "title": "The VCTK corpus is read whole and in order; texts without sound cannot be loaded again", "statement": "VCTKDB.from_db_root, for speakers 'sound', 'text' or 'info', gives the speakers asked for in sorted order (directories p<id> of wav48 or of txt, or first words of the lines of speaker-info.txt), for each what the last line about this speaker says or None, and one record for each name found among the wav or the txt files of the speaker (what lies between the last '_' of the path and the next '.'), in sorted order, with the text of its transcription and the name of its audio file if they exist. 'everything', named as default by the documentation, always raises TypeError; another word raises ValueError; a line with less than four words raises ValueError. The audio path of a record is that of an existing file, or the record has none and get_audio_path raises TypeError, as does the building of codebooks. The database can be saved; load gives it back, unless a speaker with two records or more has one without audio file: then load raises TypeError.", "quantifier": "for every disk (listings, kinds of files, texts), root, choice of speakers and existing files", "why_tests_cant": "the names of directories, files and lines, the extensions and the missing files of a corpus are unbounded; a test sees one layout and not the failure of load on a database that was saved without error", "anchors": ["multimodal/db/models/vctk.py:9-118", "multimodal/db/vctk.py:25-44", "multimodal/db/models/sound.py:51-52", "multimodal/db/models/sound.py:146-165"]}
{"id": "C98", "title": "Figures show the recorded scores of every run; the metric asked for is ignored by curves", "statement": "all_pairs and combinations give each ordered pair of distinct modalities exactly once, and each modality against all others together. plot_one_curve draws at abscissa ks[i] the average over all runs of loggers[i] of score_<a>2<b>, with their standard deviation as variation; logs with different numbers of runs raise ValueError, a run without the score TypeError; merged logs contribute all runs of all jobs. For a finished TwoModalitiesExperiment (in memory or saved and loaded) the curves show the average of the internal comparison by Kullback-Leibler divergence, whatever metric is passed: the figures that launcher.py calls 'Cosine' do not show the scores of the cosine. Box plots hold for every run exactly the score of the internal comparison by cosine, in both directions for pairs, and in the nine combinations, in three legends of three, for ThreeModalitiesExperiment; with Python 3 they raise TypeError. The six pairs have six different colours, other names raise KeyError.", "quantifier": "for every experiment with modalities among image, motion and sound, every random outcome, every number of runs, loggers and values of k", "why_tests_cant": "The figures are only looked at; no test relates drawn values to recorded scores, and the ignored argument is invisible without comparing the two scores.", "anchors": ["multimodal/plots.py:13-24", "multimodal/plots.py:34-205", "multimodal/lib/plot.py:81-146", "samples/launcher.py"]}
{"id": "C99", "title": "Tables of results give the average and deviation of the recorded scores", "statement": "Logger.get_stats(key) is the average and the population standard deviation of the values of key in all runs, and raises TypeError if a run has none. After a TwoModalitiesExperiment with at least two modalities print_result_table prints one line for each direction between the first two modalities and each comparison (internal and each modality), with average and deviation over all runs of the scores by divergence, Euclidean distance and cosine; with one modality it raises IndexError. ThreeModalitiesExperiment.print_result_table never prints a line: format of one tuple for two fields raises TypeError (ValueError with Python 2).", "quantifier": "for every experiment with known modalities, every random outcome and number of runs", "why_tests_cant": "The tables are printed text that no test reads, and averages over any number of runs and all comparisons cannot be enumerated.", "anchors": ["multimodal/lib/logger.py:65-67", "multimodal/experiment.py:281-321", "multimodal/experiment.py:367-399"]}
{"id": "C100", "title": "The launcher goes from planned experiments to figures that show their scores", "statement": "For every list Ks and number n of repetitions the launcher plans exactly one experiment for each of the four groups of modalities, each k of Ks and each repetition, and for each of the nine sets of image descriptors and each repetition, with the loaders, the class and the parameters that its name says; the name of a job tells its experiment, and names are distinct unless Ks has repetitions. prepare writes for each job a file that loads as its experiment. Each script leaves the log of its experiment, with every score of its single run, and changes no other log; the script of three modalities raises afterwards. Once all jobs were run, in any order and any number of times, plot (Python 2, 50 in Ks, n > 0) succeeds and every curve, box and legend shows the scores of the jobs that it names. It raises IOError when a job was not run, ValueError when 50 is not in Ks or n = 0, TypeError in Python 3.", "quantifier": "for every Ks, n, data, random outcomes, order of jobs, files that were there before", "why_tests_cant": "The pipeline takes days of computing on data that are not in the repository; no test covers the launcher, and orders of jobs and numbers of runs cannot be enumerated.", "anchors": ["samples/launcher.py:68-133", "samples/launcher.py:136-178", "samples/launcher.py:198-237", "samples/two_modalities.py:14-23", "samples/three_modalities.py:14-23"]}
{"id": "C101", "title": "The second choreography dataset gives the features and names of its records, in their order", "statement": "A database exported to its default place, from which features are built (Python 2), is given by Choreo2Loader as a table with one histogram of joint angles and velocities for each record and the name of the first label of each record, both in the order of the records, whichever is asked first and however often. build_features writes the archive of features and nothing else, and keeps what is already there unless forced. Features for another number of records are noticed as AssertionError; features of another database with as many records are not. In Python 3 features are never built. A name without .npz is written elsewhere than where it is checked and loaded. Records without label or without name make get_labels raise IndexError, TypeError or KeyError.", "quantifier": "for every database, user directory, files that were there before, order of calls, whitening, clustering and quantization", "why_tests_cant": "The dataset is not in the repository, and tests could only try some databases and some orders of calls.", "anchors": ["multimodal/db/choreo2.py:22-93", "multimodal/db/models/loader.py:1-17", "multimodal/local.py:10-17"]}
{"id": "C102", "title": "The first choreography dataset is loaded as in its files, in Python 2 only", "statement": "load(dataset, data_path) for the three known datasets gives, in Python 2, for each record of the JSON description and in its order, the array of the archive whose name is the data-id of the record, its labels, and the names of markers; as many labels as arrays, every array from the archive. Any other dataset name is ValueError whatever the files. In Python 3 load never returns: for the very files that Python 2 loads it raises TypeError after reading them.", "quantifier": "for every content of the files, every known dataset, every directory", "why_tests_cant": "The dataset is not in the repository, and tests cannot enumerate the descriptions and archives.", "anchors": ["multimodal/db/choreo1.py:62-104"]}
{"id": "C103", "title": "Downloads put the files of a dataset where it is loaded from and lose nothing without overwrite", "statement": "The download functions of choreo2, ACORNS (years 1 and 2, all speakers) and objects write, when the destinations are directories, the places are free or overwrite is given and the server sends the files, exactly the files of the dataset with the content at their addresses, at the default places of the loaders; nothing else changes. Whatever the server answers only these files are written, and without overwrite no existing file is lost. A missing directory or an existing first file is IOError with nothing changed. Not guaranteed: a download may stop halfway (new description beside old data), the year of ACORNS is not checked (year 0 asks for ten speakers, year 3 raises IndexError after writing), and the script download_dbs always ends with an error and never downloads the objects.", "quantifier": "for every disk, server, user directory, destination", "why_tests_cant": "Tests would need the network and could only try some states of the disk and some failures of the server.", "anchors": ["multimodal/lib/net.py:8-18", "multimodal/db/choreo2.py:96-135", "multimodal/db/acorns.py:133-148", "multimodal/db/objects.py:113-124", "multimodal/db/scripts/download_dbs:13-15"]}
{"id": "C104", "title": "The binned histogram matrix holds one smoothed density of angle and velocity per degree of freedom", "statement": "db_to_binned_hist_matrix gives one row per record, in order; a row has 30 s^2 numbers that are not negative, where s is the integer part of the square root of nb_bins; the s^2 numbers of a degree of freedom are, row by row, the Gaussian estimate of the density of its (angle, velocity) points on the s by s grid of the bounds, points being cut to given bounds, with widths rel_h times the lengths of the intervals. With both bounds given a row depends on its record only. Less than four bins raise ValueError. Not guaranteed: the documented number of columns when nb_bins is not a square, any effect of vel_delay and vel_padding, and any result with numpy 1.12 or later.", "quantifier": "for every database with the joints in use, bounds, widths, number of bins", "why_tests_cant": "The property relates each of the numbers to an estimate over all samples, for every database and grid; tests compare a few matrices.", "anchors": ["multimodal/features/angle_histograms.py:82-85", "multimodal/features/angle_histograms.py:97-155", "multimodal/lib/kde2d.py:81-127"]}
{"id": "C105", "title": "Feature files of ACORNS hold, for each speaker, the counts of the sounds of the records in order", "statement": "The three codebooks are made, in order, of the vectors of coefficients, first and second derivatives of all the given sounds, which are the streams they quantize later. The script build_codebook writes those of VCTK (150, 150 and 100 centroids) in the form read by build_acorns_features. This script writes for each year and speaker a file with one row per record, in the order of the database: the counts of the sound at the audio path of the record; afterwards load_features_and_labels gives rows and labels of the same records. Whatever the outcome only feature files change. Not guaranteed: codebooks that all have the same shape are not read back and the script fails, and a speaker without records makes it fail after the files of the speakers before.", "quantifier": "for every pair of ACORNS databases, VCTK database, sounds, clustering and quantization", "why_tests_cant": "A test would need the corpora; the alignment of rows and records is for every database.", "anchors": ["multimodal/features/hac.py:100-147", "multimodal/features/hac.py:199-201", "multimodal/db/acorns.py:103-130", "multimodal/db/vctk.py:41-44", "multimodal/db/scripts/build_acorns_features:35-56", "multimodal/db/scripts/build_codebook:16-23"]}
{"id": "C106", "title": "The parse scripts write descriptions that load as what the corpora say", "statement": "After parse_acorns succeeds, loading year 1 or 2 (from the default directory, or from the directory given) gives one list of records per speaker, made of the XML files of the speaker, sorted by audio file, with exactly the tags of the XML files; no other file changes. An XML file of year 1 that cannot be read leaves everything unchanged; one of year 2 makes the script fail but leaves year 1 written. After parse_vctk on a well formed corpus, the file written loads as the catalogue of the corpus (speakers in order with their information, one record per name found among the sounds or the texts) when every speaker of several records has all the sounds, and the codebook is then made of exactly the sounds of the corpus; a text without its sound beside another record makes the loading fail with TypeError although the script succeeded. Without a readable file of speakers nothing is written.", "quantifier": "all corpora, directories, arguments, files already there and identities of databases", "why_tests_cant": "The composition of reading, sorting, writing, loading and sorting again must hold for every corpus and be independent of the files around; the proprietary corpora are not in the repository.", "anchors": ["multimodal/db/scripts/parse_acorns:13-26", "multimodal/db/scripts/parse_vctk:13-22", "multimodal/db/models/acorns.py:38-72", "multimodal/db/models/vctk.py:58-118", "multimodal/db/models/sound.py:130-158"]}
{"id": "C107", "title": "Divergence and entropy of two dimensional samples", "statement": "For two lists of two dimensional samples that span a rectangle of positive area, kde_KL_divergence_2d returns the opposite of the trapezoidal integral of p log((p+eps)/(q+eps)) over the grid of the smallest rectangle that has all samples, although the steps of the two integrals are exchanged in the code; it is therefore bounded above by the difference of the masses plus eps times the area, it is 0 for equal samples, and it can be negative. Fewer than two bins, other numbers of columns or no sample raise ValueError; where numpy refuses float indices there is never a result. kde_entropy_gaussian_2d never computes anything: it raises TypeError for all arguments.", "quantifier": "all samples, bandwidths other than 0, numbers of bins, with or without FFT (exact arithmetic)", "why_tests_cant": "The exchange of the two steps and the sign hold or fail for every array of samples; a numeric test compares with one value computed by the same formula.", "anchors": ["multimodal/lib/kde2d.py:131-146", "multimodal/lib/kde2d.py:148-176"]}
{"id": "C109", "title": "Translations, reflections and rotations of points", "statement": "translation_matrix adds its vector to every point and the vector is read back by translation_from_matrix. For a normal that is not zero the image of a point by reflection_matrix is exactly its mirror image, and the matrix is its own inverse. For a direction that is not zero the image by rotation_matrix is exactly the point turned by the angle about the axis, counterclockwise in every right-handed frame whose third vector is along the direction; angles add, an opposite angle and direction or an angle plus 2 pi give the same matrix. quaternion_matrix of quaternion_about_axis is the same matrix if the axis is longer than the epsilon of the module, but not for all axes that are not zero. concatenate_matrices applies the matrices from the last to the first. is_same_transform accepts proportional matrices, and is not symmetric.", "quantifier": "all points, planes, axes and angles, all lists of matrices (exact arithmetic)", "why_tests_cant": "The doctests compare matrices of a few random vectors; that every point goes to the right place, for every axis, is a statement on all real vectors.", "anchors": ["multimodal/lib/transformations.py:195-243", "multimodal/lib/transformations.py:275-316", "multimodal/lib/transformations.py:1157-1171", "multimodal/lib/transformations.py:1649-1678"]}
{"id": "C110", "title": "Scalings, projections, clip matrices, shears and cells", "statement": "scale_matrix multiplies the distances to the origin, or only those along the direction. projection_matrix sends a point to the point of the plane along the normal, along the direction if it is not parallel to the plane, or on the line from the perspective point; points at the height of the perspective point, and only these, have no image; the pseudo perspective followed by the orthogonal projection is the perspective, and points that are farther from the perspective point get larger heights. clip_matrix accepts exactly ordered bounds (and near larger than epsilon for a perspective) and a point is in the box or in the truncated pyramid exactly if its image has coordinates in [-1, 1]. shear_matrix accepts exactly normals and directions whose cosine is at most 1e-6 in absolute value and moves points along the direction by their height times the tangent; it keeps volumes if both are orthogonal, but not for all accepted arguments. The columns of orthogonalization_matrix have the lengths and the angles of the cell.", "quantifier": "all points, planes, directions, bounds and angles (exact arithmetic)", "why_tests_cant": "Doctests check some random matrices; which points have images, and where they are, is a statement on all points, and the limits of acceptance are not met by random vectors.", "anchors": ["multimodal/lib/transformations.py:359-393", "multimodal/lib/transformations.py:437-496", "multimodal/lib/transformations.py:572-621", "multimodal/lib/transformations.py:624-652", "multimodal/lib/transformations.py:838-863"]}
{"id": "C111", "title": "Interpolated rotations, random rotations and the trackball", "statement": "quaternion_slerp gives the normalized first quaternion for 0 and the second for 1, and for other fractions the point at that fraction of the angle on the great circle between them (through the opposite of the second one if this is shorter), always a unit quaternion for even spins but not for odd ones. random_quaternion gives unit quaternions. A trackball keeps unit quaternions and points on the unit sphere whatever sequence of operations is applied, and calls fail only if axes are wanted and none is set. A window point stands for the point of the sphere that is seen there, or the nearest point of the rim; with an axis, for the point of its circle; the axis chosen is the first one whose circle's point is nearest. A drag turns the orientation at the click by the half turns about both points, and never moves the axis. next repeats the last movement. An axis straight down gives NaN for a click in the middle.", "quantifier": "all quaternions, fractions, even spins, axes, points, and all sequences of calls (exact arithmetic)", "why_tests_cant": "Doctests replay two sessions and compare one sum of a matrix; that orientations stay rotations and that each drag turns about the right axis by the right angle is a statement on all sequences of calls and all points.", "anchors": ["multimodal/lib/transformations.py:1270-1308", "multimodal/lib/transformations.py:1311-1353", "multimodal/lib/transformations.py:1356-1469", "multimodal/lib/transformations.py:1472-1511"]}
{"id": "C108", "title": "The parsed object database is what the loaders read", "statement": "The script parse_objects writes a database that ObjectsLoader and load_features_and_labels read by default: the frames that could be read, in order, with the names of the table and the matrices of their feature vectors; only two files change. Without the source, or without any frame, it fails and writes nothing. An existing path named without extension is left as it is, but the file that the script itself writes is not recognised. The default loader gives the frames of the objects 1 to 10 aligned with their names, after any calls; one frame with a label above 32 makes every loader fail. load_features_and_labels gives all frames with their numbers.", "quantifier": "all directories of frames, all states of the disk, all choices of features", "why_tests_cant": "A test would need the data set; whether the written file is the one read, whatever frames are missing, and what happens on a second run hold for all file systems.", "anchors": ["multimodal/db/scripts/parse_objects:1-43", "multimodal/db/objects.py:24-49", "multimodal/db/objects.py:100-110"]}
{"id": "C112", "title": "A matrix is decomposed into the parts that compose it", "statement": "compose_matrix sends a point, scaled, sheared, turned about the fixed axes x, y, z and moved, to its quotient by the weight of the perspective. decompose_matrix raises ValueError exactly if the last entry is below the tolerance or the 3 x 3 part loses a direction. Otherwise it gives scales of one sign, negative for mirrored spaces, angles in their ranges and the last column as translation, and composing these parts gives the matrix back divided by its last entry, except that perspective entries of at most the tolerance are lost. Decomposing a composed matrix gives the same scales, shears and translation and the same rotation if the scales have one sign (the same angles in their ranges), and otherwise other parts of the same matrix.", "quantifier": "all 4 x 4 matrices of reals, all parts, any exact matrix inverse", "why_tests_cant": "The doctest samples one matrix; the identity must hold for every non singular matrix, including gimbal lock, mirrored spaces and perspectives.", "anchors": ["multimodal/lib/transformations.py:700-782", "multimodal/lib/transformations.py:785-835"]}
{"id": "C113", "title": "Superposition is the best motion", "statement": "superimposition_matrix refuses sets of different sizes or of fewer than three points and nothing else. With either method (singular values or quaternions) the matrix is a rotation, a factor and a translation; the factor is 1 unless scaling is asked for, then it makes the spreads about the centres equal; the centre goes to the centre; no other rotation and translation with this factor leaves a smaller sum of squared distances. Points that are the image of the first ones by a motion (and a scaling, if asked for) are found again; the motion itself too if the points are not on a line. Both methods leave the same sum of squares. The factor is not the one with the smallest sum of squares.", "quantifier": "all sets of points, both methods, with and without scaling, all svd and eig functions that return decompositions", "why_tests_cant": "The doctests compare a few random cases; that no rotation at all is better, including for flat or mirrored sets where the sign is corrected, is a statement about all rotations.", "anchors": ["multimodal/lib/transformations.py:866-965"]}
{"id": "C114", "title": "Parameters of reflections, rotations and scalings build the matrix again", "statement": "reflection_from_matrix, rotation_from_matrix and scale_from_matrix, applied to a matrix made by reflection_matrix, rotation_matrix or scale_matrix, return parameters that make the same matrix: a unit normal and a point of the plane; an angle between -pi and pi, a unit vector along the axis and a point of the axis; the factor, the origin and a unit direction (none for a uniform scaling). A rotation is refused as a reflection unless it is half a turn. This fails where the last eigenvector of value 1 is a direction (the point then has infinite or undefined coordinates), for rotations by less than about 1e-4, where the complex eigenvectors pass for the axis, and for uniform factors closer to 1 than 5e-9.", "quantifier": "all points, directions, angles and factors, all answers of eig that are complete lists of unit eigenvectors, in any order", "why_tests_cant": "The doctests compare one random matrix, and LAPACK gives one order of eigenvectors; the claim is about all matrices and all orders, and the failures are on sets of small measure.", "anchors": ["multimodal/lib/transformations.py:246-272", "multimodal/lib/transformations.py:319-355", "multimodal/lib/transformations.py:396-434"]}
{"id": "C115", "title": "Parameters of projections and shears build the matrix again", "statement": "projection_from_matrix, applied to a matrix made by projection_matrix, returns parameters that make the same matrix: for parallel and orthogonal projections a unit normal, a unit direction and a point of the plane; for perspective projections the unit normal and the eye itself. shear_from_matrix returns an angle between 0 and a quarter turn, unit direction and normal and a point of the plane that make the same matrix. A perspective projection with the eye at distance 1 of the plane is refused with a ValueError, one with a plane through the origin gives no eye, and with pseudo depth a wrong eye is returned if eig lists the eigenvalue -1 last.", "quantifier": "all planes, directions, eyes and angles, all answers of eig that are complete lists of unit eigenvectors, in any order", "why_tests_cant": "The doctests use one random matrix; distance 1 and planes through the origin have measure zero, and the order of eigenvalues is chosen by LAPACK.", "anchors": ["multimodal/lib/transformations.py:499-569", "multimodal/lib/transformations.py:655-697"]}
{"id": "C116", "title": "The factorisation refuses exactly data that is not finite or is negative", "statement": "assert_all_finite raises ValueError if and only if an element is NaN or infinite, in every binary floating-point format and for every order in which the sum is computed: a sum that overflows does not make it raise and infinities of opposite signs do not hide. An array passes the checks at the start of KLdivNMF.fit_transform if and only if it has at most two axes and every element is finite and not negative (both zeros are accepted); the elements are unchanged and a list of numbers is one row. A csr_matrix passes if and only if its stored values are finite and not negative; a coo_matrix if and only if the sums of the values stored at one place are, and these sums come out row by row. Every refusal is a ValueError. Finite values of a coo_matrix may be refused when values at one place overflow; a csr_matrix with elements that are fine may be refused because parts of an element are looked at one by one.", "quantifier": "every precision and exponent range, every array, coo_matrix and csr_matrix, every order of the additions", "why_tests_cant": "The order of the additions belongs to numpy and changes with the shape, the memory layout and the version; the claim covers all orders and all floating-point values including the cases in which intermediate sums overflow.", "anchors": ["multimodal/lib/sklearn_utils.py:59-97", "multimodal/lib/nmf.py:22-26", "multimodal/lib/nmf.py:193-196"]}
{"id": "C117", "title": "Stacking rows and multiplying matrices do not depend on the storage", "statement": "safe_vstack of blocks with the same number of columns, each dense (a number, a list of numbers or a matrix) or sparse, gives the matrix whose rows are the rows of the blocks in their order; it is sparse if and only if a block is. No block, or blocks with different numbers of columns, raise ValueError. safe_sparse_dot of two matrices, each dense or sparse, possibly with places stored several times, has the elements of the matrix product; it is sparse if and only if both factors are and no dense output is asked for; inner dimensions that differ raise ValueError.", "quantifier": "every list of blocks, every pair of matrices, all four combinations of storage", "why_tests_cant": "Tests take a few small matrices; the claim is for all sizes, all ways of storing the same elements and all mixtures of dense and sparse blocks.", "anchors": ["multimodal/lib/array_utils.py:12-16", "multimodal/lib/sklearn_utils.py:102-110"]}
{"id": "C118", "title": "A configuration value is the one assigned last, a missing one is named, and data sets have distinct places", "statement": "After any sequence of assignments to a LocalConfig, looking up a key gives the value assigned to it last, and only keys that were assigned are found. A string that was not assigned raises a NoConfigValueError that LookupError catches and KeyError does not, with a message naming the key; but what is printed is the key alone, not the message. A tuple of a length other than one raises TypeError instead, because of the formatting of the message. get never raises for a string. With the configuration of the project each default path lies in work/data of the home directory, data sets in db and features in features, and different data has different places.", "quantifier": "every sequence of assignments, every key, every home directory", "why_tests_cant": "Tests look up one or two keys; the claim is for all histories of assignments and all keys, including those for which the error itself cannot be built.", "anchors": ["multimodal/lib/config.py:1-15", "multimodal/local.py:10-17", "multimodal/db/models/acorns.py:27-28", "multimodal/db/models/acorns.py:110-111", "multimodal/db/models/vctk.py:26-27", "multimodal/db/models/choreo1.py:85", "multimodal/db/models/choreo2.py:28-33", "multimodal/db/models/objects.py:39-43", "samples/image_sound_eval_sliding.py:31"]}
{"id": "C119", "title": "Charts: sides, ticks, grids, meshes, colours, and where things are drawn", "statement": "remove_chartjunk hides exactly the sides that are listed, makes the others thin, removes the ticks of an axis that is not logarithmic and leaves those of a logarithmic axis on a side that is left, whatever the order of sets; an unknown side raises KeyError after the ones before it were hidden. A grid is drawn for the letters x and y only, anything else raises AssertionError. The documented argument ticklabels never removes a label: it always raises. pcolormesh hides all sides, sets limits to the numbers of columns and rows and puts the given labels at the middles of cells. The default map depends on signs only, NaN counting as mixed. get_n_colors takes n distinct increasing places in [0, 1). legend uses the axes if given, else the figure, else the current axes. plot draws on the axes that are given; plot_var does not, it draws on the current axes and clears the ones given.", "quantifier": "every state of axes, every list of sides, every order of sets, all shapes and all data", "why_tests_cant": "What is drawn is seen by eye; tests take a few charts, the claims are for all states of the axes and all arguments.", "anchors": ["multimodal/lib/plot.py:39-62", "multimodal/lib/plot.py:65-78", "multimodal/lib/plot.py:81-111", "multimodal/lib/plot.py:149-168", "multimodal/lib/plot.py:171-222"]}
{"id": "C120", "title": "image_sound_eval_sliding.py: distances of sliding windows of sound from pictures of examples", "statement": "After a regular run, the script joins the recordings of the paired samples in order, cuts the joined sound in windows of half a second, one every tenth of a second and as many as fit, and compares what is heard in each window with the picture of each example: the distance is the opposite of the cosine of the two internal representations found with the dictionary learnt by the run. The distances and the labels of the examples are added to the log of the run, nothing else in the log changes, and the log is saved when it has a name, so that loading it gives back all of it. The script that plots the results then finds as many windows as there are rows of distances; not so in debug mode, where it finds more. Sounds shorter than half a second raise ValueError, codebooks giving another number of features than the data raise AssertionError (in debug mode more features are accepted), and without the file of the codebooks the script does not end well; in the first two cases the log of the run is left as it was. --debug is only recognised as first argument: after the name it is taken for the directory.", "quantifier": "every experiment that can run, every pairing, all recordings with one rate of at least 10 samples a second, all functions for the features of sounds, all numbers drawn, all names and files", "why_tests_cant": "The script needs two data sets, a trained dictionary and hours of sound, so that no test runs it; that rows of distances and plotted windows agree depends on all lengths of recordings and on rounding in the slider.", "anchors": ["samples/image_sound_eval_sliding.py:34-132", "samples/plot_image_sound_eval_sliding.py:27-51"]}
{"id": "C121", "title": "logger.py: when two logs compare as equal", "statement": "For logs that hold no arrays, comparing two loggers always gives a truth value, and it is true exactly when they have the same file name, the same global values and the same values run by run, where numbers are compared as numbers and the order in which keys were written is irrelevant, and the same sets of keys and of result keys; on such logs the comparison is reflexive, symmetric and transitive. A log saved and loaded in the same process is equal to the one in memory exactly when it was loaded with set_filename, when no result was ever stored in it and when its values hold no tuple and no dictionary with keys other than strings. If the log holds an array for which numpy gives no truth value and everything else comes back unchanged, the comparison ends with the exception of numpy.", "quantifier": "for all sequences of calls that fill the logs, all nested values, all orders of sets, all files present before, all results numpy may give for ==", "why_tests_cant": "Values are nested to any depth and compared up to order of keys and kind of number.", "anchors": ["multimodal/lib/logger.py:25-32", "multimodal/lib/logger.py:79-144"]}
{"id": "C122", "title": "icdl2013.py and image_sound.py: ten runs and a table of averages", "statement": "The two scripts run the experiment with the default run mode: the double nearest to 0.1 gives exactly ten runs, and in each of them floor(n/10) of the n samples left by the examples are tested, all the others are used to train, and no sample is tested twice. They then print six lines, for both directions and for comparisons on internal coefficients and in each modality, with the average and the deviation of the scores of the ten runs, and leave all files as they are. --debug is an option as first argument only and all other arguments have no effect. With fewer than ten samples they end with ValueError before the first run, with nothing printed.", "quantifier": "for all data that can be learnt from, all random draws and shuffles, all orders of keys of dictionaries, all command lines, at most 2^50 samples", "why_tests_cant": "It depends on the rounding of 0.1 * n and 1 / 0.1 for every n and on the outcome of every random shuffle; the scripts have no tests and a run takes hours.", "anchors": ["samples/icdl2013.py:19-28", "samples/image_sound.py:15-24", "multimodal/experiment.py:123-130", "multimodal/lib/utils.py:127-135"]}
{"id": "C123", "title": "The printed table of results shows each comparison in aligned columns, with the average and the deviation of its scores rounded to thousandths", "statement": "After an experiment with two modalities the result table has a head of five lines, one line for each pair of test and reference modalities and each place of comparison (the internal representation, then each modality), and a last rule. A line has six columns of 13 characters with one space between them: the names, centered, then for the KL, Euclidean and cosine comparisons the average and in brackets the deviation of the scores of all runs. Each number has three decimals, is the nearest multiple of 1/1000 (the even one if two are), an average never shows more than 1.000 nor a deviation more than 0.500, and greater numbers never show smaller ones. The lines are 83 characters wide exactly if no name of a modality has more than 13 characters. With one or three modalities the five lines of the head are printed and then an exception is raised.", "quantifier": "all sound experiments with two or more modalities, all random choices, all names and numbers of runs; all numbers that are not negative", "why_tests_cant": "A test prints one table; that columns stay aligned and digits stay right depends on all possible scores, numbers of runs and names.", "anchors": ["multimodal/experiment.py:291-319", "multimodal/experiment.py:377-404", "multimodal/lib/logger.py:65-67"]}
{"id": "C124", "title": "The commands of the launcher: what each one does, prints and saves", "statement": "After prepare and run, plot --save makes the four figures of the results and writes each of them to the file of its name, with the format asked for, in the directory asked for (or the default one), and prints one line for each; the four files are distinct. No command changes what it is not for: only prepare writes files of parameters, only run changes logs, only plot with --save writes figures, and only at the four paths. status prints one line; with -w it prints one line for each turn and a last one after the first read that is FAILED or more, and goes on forever if there is none; that last line may show another status than the one that ended the loop. run prints the same lines, unless the launcher is torque (given, or by default with qsub) and -w is not given. The action resume is accepted but does nothing: prepared jobs stay without logs, and plot then raises IOError. Under Python 3 plot raises TypeError and saves nothing. --no-plot does not prevent the figures from being made.", "quantifier": "every plan of experiments, data, random numbers, order of jobs and of dictionary keys, home directory, arguments of the commands, contents of the disk, and every sequence of statuses of the pool", "why_tests_cant": "The commands act on the disk, on a pool of processes and on matplotlib; the loop depends on an unbounded sequence of statuses. Tests would take one sequence and one directory.", "anchors": ["samples/launcher.py:22-38", "samples/launcher.py:41-45", "samples/launcher.py:62-66", "samples/launcher.py:122-127", "samples/launcher.py:181-195", "samples/launcher.py:198-253"]}
{"id": "C125", "title": "Where the smoothed densities are", "statement": "For samples inside the bounds, item t of the 1D Gaussian density estimate is the density of the bins spread by the Gaussian of width h sampled at the n-1 points of the kernel and divided by its total; it belongs to the point t - (n-1)/2 of the grid. In 2D the estimate has the size of the grid and spreads the bins by the product of the two normalized Gaussians, but its middle is one step (n odd) or half a step (n even) late in both directions. So the returned grid is not the grid of the estimate: for any number of samples all at one point of a grid with an odd number of points, the estimate is larger at the next point of the diagonal than there.", "quantifier": "all samples, bounds, bandwidths other than 0, numbers of bins from 2 on, both convolution methods", "why_tests_cant": "the values are sums over all bins of exponentials for every data set; a test of a few data sets checks sums to one or symmetry but not every value, nor that the shift is there for all grids", "anchors": ["multimodal/lib/kde1d.py:71-103", "multimodal/lib/kde2d.py:81-127"]}
{"id": "C126", "title": "The printed summary of a log", "statement": "print_result prints one line with the key (or the given text) followed by the average and the standard deviation of the values of all the runs, each rounded to the nearest number of six significant digits (the even one if two are), without useless zeros, in scientific notation exactly if the rounded number is less than 0.0001 or at least 1000000. With no run at all it prints nan. If some run lacks the key it raises TypeError. After any history of calls print_all_results prints exactly one such line for each key for which store_result did not raise, whatever the order of the set; if some run lacks one of these keys it raises TypeError after having printed the lines of only some of the keys. The summary of a log that was loaded from a file is always empty.", "quantifier": "every number; every history of calls on any number of loggers, every order of sets, every file that is loaded", "why_tests_cant": "A test prints a few numbers and one log; the format has to be right for all magnitudes and roundings, and the keys that are summarised depend on the whole history of calls, failed calls and merged logs.", "anchors": ["multimodal/lib/logger.py:52-77", "multimodal/lib/logger.py:116-136"]}
{"id": "C127", "title": "Files written by the script of sliding windows", "statement": "In samples/plot_image_sound_eval_sliding.py, started with a working directory that is there and has nothing called sliding_win_plots (or has it, with its directory annotated), the file train_trans.txt receives the transcriptions of exactly the records that are not test records, in the order of the corpus, one per line. Then for the windows 36, 89, 16 and 67 of the test records, in this order, the figure of plot_one_sentence with the fixed annotations is written in svg, pdf and eps under the name of the audio file up to its first point, and a line with the path is printed for each; no other file is changed. A figure stays unless a sentence saved later has the same name up to the first point, in which case the later one replaces it. With 37 to 89 windows only the three files of the first sentence are written before an IndexError; with fewer none is, but the transcriptions are. If sliding_win_plots is there without its directory annotated, this directory is not created and the first figure fails. The file of transcriptions determines the list if there is at least one and none has an end of line in it.", "quantifier": "All corpora (transcriptions, audio names without '/'), all choices of test records, all pairs of the database, all starting disks of the described shape, all plotting functions.", "why_tests_cant": "The script needs the corpus, hours of experiments and a display; a test would see one corpus and one state of the disk, not which files are kept for every choice of names and every number of windows.", "anchors": ["samples/plot_image_sound_eval_sliding.py:97-101", "samples/plot_image_sound_eval_sliding.py:122-123", "samples/plot_image_sound_eval_sliding.py:138-166"]}
{"id": "C128", "title": "Concatenations of concatenations", "statement": "A ConcatTimeWindow may contain ConcatTimeWindows to any depth. The constructor accepts such a list of valid concatenations exactly when it accepts the flat list of all their windows (non-empty, gaps at most TOL), with ValueError otherwise. absolute_start, absolute_end and duration are those of the first and the last of the flat list, move moves every window, and to_array_window succeeds with a result exactly when it does so on the flat list, with the same result. For basic windows that cut an interval exactly (only the first may have no duration), copy gives the same windows and get_subwindow(a, b) gives a valid concatenation whose flat list is what remains of the flat list between a and b: windows that end before a are dropped, the next one begins at a, the first that does not end before b ends at b.", "quantifier": "All trees of windows of any depth and width, all times and tolerances as rationals, all contents of wav files.", "why_tests_cant": "Tests of window.py use flat concatenations of a few windows; the recursion of get_subwindow through copies and the tolerance tests at each level cannot be enumerated over all trees and cut times.", "anchors": ["multimodal/lib/window.py:264-329"]}
{"id": "C129", "title": "Windows written to wav files are read back", "statement": "After write_as_wav of an array window, a WavFileTimeWindow on this path at any start gives an array window with the same samples and rate, which begins at the start and lasts the number of samples over the rate; other files are unchanged. save_wav succeeds on a concatenation whose first window has a rate and whose samples can be joined, changes no other file, and concat_from_list_of_wavs of the file gives back the samples of to_array_window at the rate of the first window, from the requested start (0 by default). A concatenation that contains one concatenation has the same samples but save_wav raises AttributeError, since a concatenation has no rate.", "quantifier": "All windows and trees of windows, all contents of the other files, all paths and starts.", "why_tests_cant": "A test would write a few files with a given library and check a few samples, not all windows, nestings and states of the file system.", "anchors": ["multimodal/lib/window.py:191-192", "multimodal/lib/window.py:332-342"]}
{"id": "C130", "title": "Printed description of a motion database", "statement": "print_info prints the sizes of one sample of the first record after the T of its length, and one line per marker in order, so the markers and the sizes can be read back from the text when names have one line; without records it prints nothing and raises ValueError. A verbose load_from_npz prints the number of records and the name, then this description, and gives the same database as a silent one, except that an empty database is counted and then ValueError is raised; a silent loading, or one that fails, prints nothing.", "quantifier": "for all databases, arrays of any shape, names of markers, sets of files and locations", "why_tests_cant": "The text is only seen on a terminal; tests would look at one database, and neither at the empty one, that only fails when verbose, nor at names that make two databases print the same text.", "anchors": ["multimodal/db/models/kinect_motion.py:73-78", "multimodal/db/models/kinect_motion.py:222-227", "multimodal/db/models/kinect_motion.py:229-261"]}
{"id": "C131", "title": "Annotations of the plot of a sentence", "statement": "The plot of one sentence is titled with its transcription; each annotation gives a span with its bounds, as they are given, and a text in the middle of the span; all texts are at the height of the top of the axis before the first annotation, and the axis is then enlarged from 0 to 0.03 above. The height is never computed again: after the plot is drawn again an annotation may lie above the axis; and the bounds are not made relative to the beginning of the sentence as the other times are.", "quantifier": "for all sentences, windows, similarities, annotations, limits chosen by matplotlib, and histories of drawings and annotations", "why_tests_cant": "The positions are only seen on a figure; a test would draw once, and not any sequence of drawings and annotations.", "anchors": ["multimodal/plots.py:219-224", "multimodal/plots.py:270-313", "multimodal/plots.py:319-328", "multimodal/plots.py:369-386"]}
{"id": "C132", "title": "XML element of a record", "statement": "getDom gives an element named record whose only attribute is the style, with one child for the audio file, one for the transcription and one for each tag, in order, so that all of them can be read back, and records with the same element have the same dictionary; the speaker is not in it. A record whose file or transcription is missing has a dictionary but raises TypeError here; a tag that is not in the database raises IndexError.", "quantifier": "for all databases and records, with any texts and numbers of tags", "why_tests_cant": "Tests would look at one record; that nothing is lost is about all pairs of records, and no code of the project reads the elements back.", "anchors": ["multimodal/db/models/sound.py:48-49", "multimodal/db/models/sound.py:54-59", "multimodal/db/models/sound.py:61-77"]}
{"id": "C133", "title": "The text printed about a sound database", "statement": "str of a sound database gives its numbers of records (of all speakers), of speakers and of keywords, and two databases with the same text have the same three numbers; adding a keyword, a speaker or a record adds one to its own number only, and a refused addition leaves the text unchanged. statistics always prints its title and this text first; with speakers it stops there with TypeError, without speakers but with keywords it prints one more line and raises TypeError, and only with neither does it print everything and return.", "quantifier": "all databases, keywords, speakers and records", "why_tests_cant": "The text has to tell the numbers for every database and every sequence of additions, and what is printed before a failure depends on the database.", "anchors": ["multimodal/db/models/sound.py: DataBase.__str__", "multimodal/db/models/sound.py: DataBase.size", "multimodal/db/models/sound.py: DataBase.statistics"]}
{"id": "C134", "title": "Relative and absolute times of a window", "statement": "For every window, nested concatenations included, absolute_to_relative_time and relative_to_absolute_time are inverse of each other and count from the start of the window: the start is at 0, the end at the duration, the mean time at half of it, and check_time accepts exactly the times whose relative time lies between 0 and the duration (TimeOutOfBound otherwise). Moving a window adds the displacement to its absolute times and mean time, and keeps relative times, duration and which times are accepted.", "quantifier": "all windows, times and displacements", "why_tests_cant": "The conversions have to agree for every nesting of windows of all kinds, each of which computes its start and end in its own way.", "anchors": ["multimodal/lib/window.py: TimeWindow.relative_to_absolute_time", "multimodal/lib/window.py: TimeWindow.absolute_to_relative_time", "multimodal/lib/window.py: TimeWindow.mean_time", "multimodal/lib/window.py: TimeWindow.check_time", "multimodal/lib/window.py: move"]}
{"id": "C135", "title": "The text of a sound record", "statement": "str of a record gives its transcription, file, tag names and speaker; it raises IndexError exactly when a tag or the speaker is not in the database. When transcriptions have no double quote, file names no comma and speaker names no parenthesis, records with the same text have the same transcription, file, tag names and speaker, even in different databases; without that two different records can have the same text, and the style is never written.", "quantifier": "all databases and records", "why_tests_cant": "Whether a text can be read back depends on all the strings that it may contain.", "anchors": ["multimodal/db/models/sound.py: Record.__str__", "multimodal/db/models/sound.py: Record.__repr__"]}
{"id": "C136", "title": "Lengths of vectors and vectors of length 1, along any axis", "statement": "vector_norm gives, for a single vector, the Euclidean norm of its elements whatever the axis; for other arrays, without an axis one number, the norm of all the elements, and with an axis the array where this axis is replaced by the norm of what lies along it. unit_vector keeps the shape and gives every vector along the axis (all the elements without an axis, the whole vector for a single vector) the same direction and norm 1, provided it is not zero. An axis that the array does not have is an error, except for a single vector. An array out gets the same elements, but a single vector with an axis is then refused; a number is refused by unit_vector.", "quantifier": "for all arrays of real numbers of any shape, all axes including negative ones, all shapes of out", "why_tests_cant": "The shapes and axes are without bound and the branches for one axis, several axes, no axis and out treat them differently; a test checks a few shapes with random numbers.", "anchors": ["multimodal/lib/transformations.py:1535-1571", "multimodal/lib/transformations.py:1574-1615"]}
{"id": "C137", "title": "Importing a compiled module over the Python functions", "statement": "_import_module with its defaults gives each public name of the module the module's value, keeps the value the name had under '_py_' + name, changes no other global name, warns once, in order, for each public name that did not exist, and returns True; a module that cannot be imported changes no name and gives None and one warning. The same holds of any prefix no imported name starts with. A second import loses the values of Python that had been kept (refuted: existing attributes are renamed with prefix), and without ignored names a kept value can replace an imported one.", "quantifier": "for all global names, modules with any attributes, prefixes and ignored beginnings", "why_tests_cant": "The compiled module is absent from the repository and its attributes are unknown; a test would see one set of names, whereas clashes depend on all names and their order.", "anchors": ["multimodal/lib/transformations.py:1681-1705"]}
{"id": "C138", "title": "A fit can end with a worse factorisation than it began with", "statement": "One would rely on each update of a fit lowering the error, as the test test_decreases_KL checks on random matrices. This is false: for the data [[0, 50], [1, 0]], one component and random numbers in [0, 1), and for every tolerance and number of iterations, the fit makes a single update that raises the error by at least 4, stops because the error did not fall, and keeps that result (the components are updated with the new coefficients but with the ratio of the old ones). What does hold is that an exact factorisation whose dictionary rows sum to 1 is left as it is, up to the 1e-16 of the normalisation.", "quantifier": "exists data and random numbers, for all tolerances and numbers of iterations; for all exact factorisations of any size", "why_tests_cant": "The test of the repository draws random matrices, for which the error does fall; the claim is about all matrices.", "anchors": ["multimodal/lib/nmf.py:201-230", "multimodal/lib/nmf.py:232-257", "multimodal/lib/nmf.py:336-351", "tests/test_nmf_kl.py:126-130"]}
{"id": "C139", "title": "With a positive tolerance the first error bounds the number of iterations of a fit", "statement": "Every error reported by fit_transform is at least -n*m*1e-8 for n samples of m features. Hence with a positive tol the number of updates after the first is at most (e0/(n*m) + 1e-8)/tol, where e0 is the first error, however large max_iter is; and the warning about the iteration limit is not written when max_iter exceeds this bound by more than 2.", "quantifier": "for all non-negative dense or sparse data of any size, initial dictionaries, tolerances and max_iter, for fit and transform", "why_tests_cant": "The bound concerns runs of any length on any data; tests run a few fits to the end.", "anchors": ["multimodal/lib/nmf.py:206-230", "multimodal/lib/nmf.py:297-312"]}
{"id": "C140", "title": "A reconstructed modality has only its dictionary's share of the mass", "statement": "If no row of a trained learner's dictionary has more than S of its sum in the columns of a modality, then the reconstruction of that modality from any modality, by modality_to_modality, has in each row at most S times the sum of the row of data (times the coefficient of the modality of the data, plus 1e-8 per column), for every initialisation and every number of iterations. So a modality is in general not reconstructed from itself, even where its own dictionary can represent the data exactly: with two modalities that have half of the dictionary each, about half of the value is lost.", "quantifier": "all well formed trained learners with non-negative dictionaries, all pairs of modalities, all non-negative data of any size, all random initialisations, all numbers of iterations from 1", "why_tests_cant": "Tests compare shapes, or distances of reconstructions for one learner and one seed; a bound for every initialisation and every number of iterations, and the failure of convergence to the data as iterations grow, cannot be observed by runs.", "anchors": ["multimodal/learner.py:11-15", "multimodal/learner.py:43-56", "multimodal/learner.py:71-94", "multimodal/lib/nmf.py:339-343"]}
{"id": "C141", "title": "The coefficients of a sample depend on the other samples only by the number of iterations", "statement": "Two calls of transform with the same components give the same coefficients to a sample that is in both data, if they make the same number of iterations: the other samples, their number and the random numbers have no influence. The number of iterations itself depends on all the samples, because the stopping rule uses the sum of the errors and the size of the data; so in general the coefficients of a sample do change when other samples, even samples that are zero, are added.", "quantifier": "all data of any number of samples with the same number of columns (both dense or both sparse), all non-negative components, all positions of the sample, all random numbers; a witness with one and three samples for the second part", "why_tests_cant": "A test runs transform on some data; that no other sample can ever change the result for equal numbers of iterations is a statement about all data, and the dependence through the stopping rule is seen only for tolerances near the decrease of the error.", "anchors": ["multimodal/lib/nmf.py:159-230", "multimodal/lib/nmf.py:232-257", "multimodal/lib/nmf.py:275-295", "multimodal/lib/nmf.py:339-343"]}
