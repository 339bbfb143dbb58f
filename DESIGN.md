# Formal model of omangin/multimodal

The source under study is `/repo` (Python, pinned commit).  It is read as text;
nothing is executed.  The model and the proofs are Rocq (Coq 8.16.1) files in
`rocq/theories`, logical prefix `Verif`.

## Layout

For each component `X` of the code:

* `X_model.v`: the functions of the code, one Gallina function per Python
  function or method, branch by branch, each with a comment citing the file and
  lines and saying what was simplified.  No proofs.
* `X_spec.v`: small independent specifications in which the properties are
  stated (no use of the model's helper functions).
* `X_proof.v` and other files: lemmas.
* `X_props.v`: the property theorems only, each closed by `exact`, followed by
  `Print Assumptions` and by concrete examples that satisfy the hypotheses.

`Py.v` contains the Python primitives (exceptions as values, indexing, slices,
`list.index`, dictionaries in insertion order, ...).

## General modelling decisions

* **Exceptions are values**: a function that can raise returns `result A`, with
  a constructor naming the exception class.  No function is totalised by a
  silent default.  Methods that change an object return it also when they
  raise, so that what an exception leaves behind is visible.
* **Numbers.**  Integers are `Z` or `nat` (int32 overflow is not modelled).
  Times, weights and scores that are only compared, added and multiplied are
  exact rationals `Q`; quantities that need `log`, `sqrt`, `exp` or
  trigonometry are real numbers `R`.  IEEE rounding is not modelled, except
  where a theorem holds for *arbitrary* arithmetic (C03) or the binary64
  rounding matters for an integer result (C25, C34).  NaN and infinities are
  not modelled except in C03; theorems have hypotheses that exclude divisions
  by zero.
* **Randomness and unordered iteration** (`np.random.shuffle`,
  `np.random.random`, iteration over a `set`, the clock) are universally
  quantified: a shuffle is an arbitrary permutation supplied from outside, and
  theorems hold for each of them.
* **numpy / scipy** primitives used by the code (dot, sum, argmin, argsort,
  fancy indexing, bincount, sparse storage, broadcasting where the code uses
  it) are modelled by list functions; these definitions are part of the trusted
  base.  Numerical libraries called as black boxes (vq, kmeans, kmeans2, svd,
  whiten, librosa) are arguments, constrained in the theorems by the part of
  their documentation that is needed.
* **File system**: a finite map from names to contents.  JSON and npz are
  modelled as value trees (not as byte strings), including the conversion of
  tuples to lists and of integer keys to strings.
* **Versions**: where Python 2 and 3, or old and new numpy, differ, the model
  has a flag and the theorems say for which value they hold.


## What is proved, per property

Status "proved" means that the theorems together give the statement of
`properties.jsonl` for the model; the note says under which reading.  Theorems
whose name ends with `_refuted` show that an expectation stronger than the
statement is false of the code.

| id | property | model | status | what is proved and how it is read |
|----|----------|-------|--------|------------------------------------|
| C01 | Hungarian assignment is optimal on square matrices | munkres | proved | Whole algorithm modelled with explicit fuel shown sufficient; exact rationals; optimality by duality. An empty matrix raises. |
| C02 | Hungarian assignment on rectangular matrices | munkres | proved | Rectangular matrices through the padding of the code, both orientations; exact rationals. |
| C03 | Hungarian assignment: result shape under arbitrary rounding, divergence on NaN | munkres | proved | Shape and injectivity for any arithmetic (rounding included) on comparable numbers; with NaN weights the loop never ends. |
| C04 | Brute force oracle agrees with the Hungarian method | munkres | proved | all_perms lists every permutation once; brute force and the Hungarian method give the same cost. |
| C05 | reverse_function inverts injections; its default size never works | munkres | proved | All injective lists; without size it raises IndexError for every non-empty list. |
| C06 | associate_samples keeps labels faithful | pairing | proved | All label lists and all outcomes of set order and shuffles (oracles). |
| C07 | associate_samples pairs each sample at most once and loses no possible pair | pairing | proved | Each sample is paired at most once, and each label as often as the rarest modality allows. |
| C08 | associate_samples rejects exactly the mismatched label sets | pairing | proved | The exact conditions under which pairing raises. |
| C09 | organize_by_values partitions its indices | pairing | proved | organize_by_values for all lists, with and without the number of values. |
| C10 | associate_to_window labels every frame consistently | framing | proved | Basic label windows with a label each; equality of labels needs non-negative labels (C10_equal_label_refuted). |
| C11 | BasicTimeWindow.get_subwindow bounds | window | proved | The values are immutable in this model; that the original object is unchanged is part of C19. |
| C12 | ArrayTimeWindow.get_subwindow is the largest sample-aligned subwindow | window | proved | Exact rationals; for b < a inside the window the result is empty. |
| C13 | WavFileTimeWindow stays consistent through every operation history | window | proved | Any history of move, copy and get_subwindow from a fresh window over a whole file. |
| C14 | Wav and array windows give the same sub-windows | window | proved | The three possible outcomes, exhaustively. |
| C15 | ConcatTimeWindow construction, alignment and lookup | window | proved | The 'first window ending at t or later' part needs ends that never decrease (every window at least TOL long, C15_long_windows); C15_first_refuted gives the counterexample with a shorter overlapping window. |
| C16 | ConcatTimeWindow.get_subwindow covers exactly the requested range | window | proved | Exactly aligned windows; C16_gap_refuted shows a failure when windows are aligned only up to TOL. That the original object is unchanged is part of C19. |
| C17 | slider enumerates the right windows | window | proved | Tolerance at most shift (full windows), at most half of shift (partial windows). |
| C18 | concat_of_frames tiles the interval | window | proved | With t0 + TOL <= t1 and TOL * rate <= 1/2. |
| C19 | Copies of windows are independent | winheap | proved | Copies and sub-windows share no mutable object with the original, both directions, for arbitrary programs; array windows share samples (C19_array_samples_refuted), so the theorem excludes writes to samples when array windows are involved. align changes exactly the listed windows; with a window listed twice it does not align (C19_align_duplicates_refuted). |
| C20 | chose_examples picks the first examples of each label | evaluation | proved | chose_examples for any label set order; indices of first occurrences. |
| C21 | Nearest-neighbour classification returns the label of a closest example | evaluation | proved | Any strict order on distances; ties go to the first example. |
| C22 | Scores are fractions of matches | evaluation | proved | Scores as exact fractions; zip stops at the shorter list (C22_score_truncates). |
| C23 | found_labels_to_confusion records presence, not counts | evaluation | proved | confusion matrix marks presence, not counts; equal to counts iff no pair is repeated. |
| C24 | compare_labels_given_nb compares top-k label sets | evaluation, levels | proved | Ranking of activations for any number of true labels. |
| C25 | random_split produces disjoint, equal-sized, complementary splits | utils | proved | All sizes up to 2^51 and all ratios; binary64 rounding of n * ratio modelled. |
| C26 | leave_one_out enumerates each sample exactly once as test | utils | proved | All sizes. |
| C27 | Velocities and delayed differences | utils | proved | All delays and lengths, both paddings, errors included. |
| C28 | Nested list helpers | levels, utils | proved | Nested lists of any depth. |
| C29 | Logger is write-once per run and keeps its key sets exact | logger | proved | State machine over all sequences of operations on loggers sharing run dictionaries. |
| C30 | Logger save/load round trip | logger | proved | Saved and loaded loggers; arrays kept by the archive; the npz name clash is an error; plain equality is refuted (tuples, integer keys). |
| C31 | Logger save is not crash-atomic | logger | proved | Every prefix of the sequence of writes; atomicity is refuted. |
| C32 | Merging loggers concatenates their runs | logger | proved | Merging shares the run dictionaries (C32_shared_runs_refuted). |
| C33 | prepare aligns modalities and isolates examples | experiment | proved | prepare modelled whole, both debug modes; loaders are values; outcomes of shuffles and set orders are arguments |
| C34 | Train, test and example sets never overlap during a run | experiment | proved | splits of all run modes as logged by run, also when a run raises; at most 2^51 samples (binary64) |
| C35 | Result keys of one run are unique unless modality names clash | experiment | proved | keys distinct for clean names; whole runs raise ValueError for a reserved name and for ThreeModalitiesExperiment with two modalities |
| C36 | Experiment parameters survive serialization | serial | proved | File round trip for every experiment over the three datasets (label sets as sets, any set order), exact equality for JSON-native parameters; a foreign loader class is written but cannot be loaded; an unwritable parameter destroys the destination; files without one of the nine keys, or with a loader that is not a pair, are refused. |
| C37 | Default modality coefficients balance the modalities | experiment | proved | real arithmetic |
| C38 | Modality blocks partition the stacked feature axis | learner | proved | get_index, get_axis_range, get_dico, get_stacked_dicos, stack_data and safe_hstack modelled on dense and csr matrices over the reals. An unknown modality raises ValueError in each of them. |
| C39 | Cross-modal reconstruction composes and keeps shapes and signs | learner | proved | reconstruct_internal_multi calls the NMF model (random draws are an oracle); result shape, blocks, sign and composition proved for all iteration counts >= 1. |
| C40 | NMF keeps factors non-negative, in shape, and locks zeros | nmf | proved | One update, and results of fit_transform and transform, dense and canonical sparse data; success of the call is C43_run. |
| C41 | NMF coefficient update never increases the smoothed divergence | nmf | proved | Dense and canonical sparse data, any eps > 0; bound without normalised rows and a witness that the plain statement needs them. |
| C42 | NMF dictionary rows are normalised | nmf | proved | Per update, and for the components after any successful fit. |
| C43 | fit_transform stopping rule and reported errors | nmf | proved | The whole call as a sequence of updates with its errors, the ignored arguments, the UnboundLocalError and the ValueError for negative data. |
| C44 | Sparse and dense NMF errors agree | nmf | proved | Canonical (sorted) csr data; for rows that are not sorted the errors differ, C44_unsorted_refuted. |
| C45 | transform does not change components but changes later fits | nmf | proved | All histories of fit and transform calls, also those that raise. |
| C46 | Generalised KL divergence bounds | metrics | proved | Exact reals, smoothing eps > 0, non-negative arrays of any shape, with and without axis. Also proved: the divergence can be negative (refuting the usual expectation), kl_div ignores its eps argument, and normalize=True changes the caller's arrays. |
| C47 | Entropy bounds | metrics | proved | Exact reals, arrays of any shape; zero iff deterministic and maximal iff uniform. |
| C48 | Mutual information identities | metrics | proved | Exact reals, any joint histogram of total exactly 1; the tolerance of allclose plays no role there. |
| C49 | Conditional entropy bounds | metrics | proved | Any number of axes >= 2; one-dimensional input raises TypeError. |
| C50 | Cosine similarity and Euclidean distance | metrics | proved | Exact reals, any shape and axis, both operands of the same shape. |
| C51 | Hoyer sparseness lies in [0,1] | metrics | proved | Exact reals, any shape and axis with at least two entries; constant lanes give eps/(sqrt n /c/ + eps). real_sparsity for dense arrays. |
| C52 | GrowingLILMatrix equals its rows padded with zeros | array_utils | proved | Any non-empty sequence of rows. |
| C53 | normalize_features and normalize_sum | array_utils | proved | Dense matrices and csr matrices with any order of elements; normalize_sum for any axis. |
| C54 | coocurrences counts lagged pairs exactly | hac | proved | hac_model.v models lib/hac.py and hac() of the acorns/sound features. C54_counts gives every cell of the co-occurrence vector as the number of positions, C54_unique that these cells determine it, the others the lag-zero, negative-lag, block layout and no-lag cases. C54_wrong_code_refuted shows that an out-of-range code is not always rejected. Codes are exact integers, no int32 overflow. |
| C55 | Vector quantization histograms | quant | proved | quant_model.v over exact reals. C55_soft needs positive weights of some finite distance (EPSILON added), see statement; vq is an oracle returning first nearest centroid. |
| C56 | compact/un_compact round trip and Python 3 iterator exhaustion | angle | proved | angle_model.v over exact reals; whiten, kmeans and vq are arguments constrained by is_whiten, gives_centroids (kmeans keeps all clusters) and is_vq. C56_dropped_centroid covers a kmeans that drops clusters. Under Python 3 stacking is done before whiten in the model, the code interleaves them. |
| C57 | Sound database registries | sound | proved | Every history of add_tag, get_tag_add, add_speaker, add_record, sort and load_from. The expected check of tag numbers is false (C57_tags_checked_refuted). |
| C58 | Sound database JSON round trip | sound | proved | Records with named audio files, or without audio file when the speaker has one record or sorting is off; otherwise the sorted reading raises TypeError (C58_no_audio). Other values up to what JSON does to them. |
| C59 | Record comparison operators are inconsistent on equal audio | sound | proved | Python 3 comparisons. The converse relation is refuted (C59_converse_refuted). |
| C60 | Motion database export/load and extend | motion | proved | Round trip of npz export and loading for labels JSON can write; extend; unknown types; string keys after a round trip and what they break. Refuted for file names with a directory: the exported database cannot be loaded. |
| C61 | Object frames and per-frame histograms | objects | proved | Lines of the statistics file accepted exactly when of the described form; four views become five; features read in reverse order of lines; by-frame histograms are the means of the frame's rows for frames with views; to_dict, JSON and from_dict give back every constructed frame. int and float of words are oracles; sparse matrices as values. |
| C62 | ACORNS blacklist keeps features and labels aligned | acorns | proved | Alignment of rows and labels for all record lists and matrices; injectivity for all integers; check_speaker accepts n_speakers. Removal by ascending positions refuted (the blacklists of the code are single positions). |
| C63 | Quaternion algebra and base-frame invariance of joint angles | transf | proved | transf_model.v over exact reals (no rounding, no signed zero). A common rescaling is unconditional; a factor for each frame needs the second quaternion not to fall under the eps threshold, C63_rescaled_refuted shows the condition is needed. C63_meaning: the angles rebuild the relative rotation. |
| C64 | Rotation matrices and Euler angles | transf | proved | For all 24 axis sequences; in gimbal lock C64_gimbal bounds the error by twice the gap. |
| C65 | KDE binning conserves mass | kde | proved | Exact reals. 1D: grid, values, signs, mass and mean proved, errors proved. 2D: values, signs and mass proved; the claim that wrong bounds raise ValueError is false in 2D (C65_unchecked_bounds_refuted). Numpy that refuses float indices: never returns. |
| C66 | compare_labels_threshold accepts exactly the right rows | evaluation, levels | proved | All matrices and thresholds. |
| C67 | evaluate_label_reco is the fraction of rows whose best label is right | evaluation | proved | All matrices of activations. |
| C68 | meta_map acts exactly on its level | levels, utils | proved | All depths; iterators are taken as lists. |
| C69 | manualy_normalize is the affine map of the bounds to [0, 1] | utils | proved | Exact reals; equal bounds give the flat case. |
| C70 | A failed save destroys the previous save | logger | proved | A failed save leaves an unreadable file. |
| C71 | Cutting a concatenation of sampled windows commutes with loading the samples | window | proved | Any partition into sampled windows. |
| C72 | A concatenation of wav files contains their samples in order | window | proved | Any list of files with the same rate; different rates raise. |
| C73 | Sample times are preserved by cutting | window | proved | Exact rationals. |
| C74 | all_distances compares every pair of rows | metrics | proved | Also shown: rows of different lengths are not rejected when one has length 1 (broadcasting). |
| C75 | NMF coefficients never exceed the mass of the sample | learner, nmf | proved | Also for the learner (C75_internal): coefficients of a sample are bounded by its weighted data. |
| C76 | NMF scale keeps the product | nmf | proved | Product kept for every number of components but one; with one, IndexError. |
| C77 | Training gives a usable non-negative dictionary | learner | proved | train on the NMF model; the missing-matrix part of the claim is refuted by C77_missing_matrix_refuted (zip cuts the shorter list). |
| C78 | An experiment runs to the end and logs the results of nearest-neighbour tests | experiment | proved | end to end, random draws of the factorisations are arguments, real arithmetic |
| C79 | Codebooks built by splitting have exactly k centroids | quant | proved | iterative_kmeans with kmeans2 and svd as oracles constrained by is_kmeans2 and is_svd: number of centroids and the split of the most populated cluster. |
| C80 | Conversions between Euler angles, quaternions and matrices agree | transf | proved | All 24 axis sequences, both frames; exact reals. |
| C81 | Smoothing never creates mass | kde | proved | Exact reals; FFT and direct convolutions identified. |
| C82 | Sign of the estimated divergence | kde | proved | Exact reals. The returned number has the wrong sign: C82_nonnegative_refuted gives a value below -1. |
| C83 | Keyword co-occurrence counts | sound | proved | Records whose tags all exist. |
| C84 | Database statistics cannot be printed | sound | proved | Printed text is not modelled, only the exceptions. |
| C85 | Audio paths | sound | proved | Unix paths. |
| C86 | ACORNS database built from the original files | acorns | proved | XML parsing is an oracle giving what is read from each file. |
| C87 | Motion databases exported as text or for Matlab | motion | proved | Text export up to the first bad array, Matlab export; a text export cannot be loaded. |
| C88 | Object loader: rows and labels stay aligned | objects | proved | Same frames in the same order for data and labels after any calls; a frame without name makes it fail. |
| C89 | Object databases: building, saving and loading | objects | proved | Kept frames, padded means, IndexError cases; save and load round trip; early save refused. Text files as lists of lines. |
| C90 | Similarity plots: each point belongs to its window | plots | proved | Drawing is the list of what is handed to matplotlib. Points, rows, segments, axis, legend; sizes; one sentence. |
| C91 | Similarity plots: every part of the recordings can be drawn | plots | proved | Any part inside the recordings is drawn with its sentences; outside raises; the failures of InteractivePlot as _refuted theorems. |
| C92 | Similarity plots: names of the parameters are exchanged | plots | proved | Calls by name fail for all data (_refuted theorems). |
| C93 | Sliding evaluation script: tested records and confusion matrix | sliding | proved | The script's use of the logged numbers is refuted for every prepared experiment; exact shift, exact condition on labels, exact counts. |
| C94 | Statistics of words and labels | words | proved | The order of the set of labels is an arbitrary function; sentences are lists of ASCII characters (accents are not modelled). The counts are given by an inductive relation, not by the histogram code. |
| C95 | Information of coefficients about labels and its plot | info | proved | Floats are real numbers (rational numbers for the assignment); bins are half-open intervals of exact real numbers. The independence criterion follows from the theorem of C48 about mutual_information. np.bool (removed in numpy 1.24) is taken as bool. |
| C96 | Restoring an experiment from its log | info | proved | The expected behaviour of lines 114-115 is refuted for every run (C96_hyphens_refuted); the rest of the script is proved correct for the right names. |
| C97 | The VCTK corpus is read whole and in order; texts without sound cannot be loaded again | vctk | proved | The whole of vctk.py, with the disk given by what os and open return. everything is refuted (set of a method); the reading again is stated with the savable and sortable databases of C58. |
| C98 | Figures show the recorded scores of every run; the metric asked for is ignored by curves | figures | proved | plots.py and lib/plot.py in figures_model.v; C98_two and C98_three relate what is drawn after an experiment to the scores of C78; that metric is ignored and that Python 3 cannot fill boxes are C98_metric_refuted and C98_python3_refuted. A logger without runs gives nan and is excluded |
| C99 | Tables of results give the average and deviation of the recorded scores | figures | proved | exact real numbers before formatting with three digits; C99_one_refuted and C99_three_refuted give the failing tables |
| C100 | The launcher goes from planned experiments to figures that show their scores | launcher | proved | expjobs is not in the repository: jobs, config paths and run_class are modelled from their use; runnable (data and random numbers such that each experiment can be run) is a hypothesis met by C100_ex; C100_figures_refuted, C100_missing and C100_no_runs give the cases without figures |
| C101 | The second choreography dataset gives the features and names of its records, in their order | choreo2 | proved | Whitening, kmeans and vq are oracles with the specifications of C56; the table of features is described as in C56 (frequencies of nearest centroids); the export and loading of databases are those of C60. Downloads are not part of it. |
| C102 | The first choreography dataset is loaded as in its files, in Python 2 only | choreo1 | proved | Arrays are opaque; the disk is that of C60 (motion_model.v). |
| C103 | Downloads put the files of a dataset where it is loaded from and lose nothing without overwrite | download | proved | The server is an oracle that gives for an address what is left in the file and whether the transfer succeeds; files and directories are identified by the text of their paths. |
| C104 | The binned histogram matrix holds one smoothed density of angle and velocity per degree of freedom | binned | proved | binned_model: get_bounds and db_to_binned_hist_matrix, on top of the joint angles (transf_model) and of the density estimates (kde_model). Values of each row tied to the estimates of C65/C81; independence of records when bounds are given; ValueError below four bins; documented number of columns refuted; no result with recent numpy. |
| C105 | Feature files of ACORNS hold, for each speaker, the counts of the sounds of the records in order | hacfeat | proved | hacfeat_model: building of codebooks from sounds, scripts build_codebook and build_acorns_features with the files they write and read, on top of hac_model, sound_model, acorns_model and vctk_model. Coefficients, derivatives, kmeans2, vq and the reading of sounds are arguments. Rows proved to be those of the records, in order, also through load_features_and_labels; failures for codebooks of equal shapes and empty speakers. |
| C106 | The parse scripts write descriptions that load as what the corpora say | parse | proved | The whole scripts: the loops, the reading of the corpora, writing, and the loading afterwards. XML parsing and the disk are arguments. |
| C107 | Divergence and entropy of two dimensional samples | kdediv | proved | Real numbers instead of floats; the claims that a divergence is not negative and that the entropy can be computed are refuted. |
| C109 | Translations, reflections and rotations of points | affine | proved | Geometry of points: mirrored and turned_about are stated with inner products and frames, not with the matrices. |
| C110 | Scalings, projections, clip matrices, shears and cells | affine2 | proved | Images of points are compared with lines, planes and heights stated by inner products; clip matrices with the box and the pyramid. |
| C111 | Interpolated rotations, random rotations and the trackball | arcball | proved | arcball_*.v. Real arithmetic; a vector of NaN is shown as None. Refuted parts: unit results for odd spins, circle points for the axis straight down. |
| C108 | The parsed object database is what the loaders read | objparse | proved | frames, files and the feature extraction are arguments; the names table is the one of the code |
| C112 | A matrix is decomposed into the parts that compose it | decompose | proved | real numbers; numpy.linalg.inv is an argument, any exact inverse; numpy.linalg.det is the determinant; divisions by a zero last entry in compose_matrix excluded |
| C113 | Superposition is the best motion | superpose | proved | svd and eig are arguments: svd returns orthonormal factors with decreasing singular values, eig an eigenbasis of a symmetric matrix; C113_decompositions proves that both always exist (the examples case_svd, case_eig and case_motion, no theorem, also use ClassicalEpsilon.constructive_indefinite_description to make functions of them). Real numbers; scaling is stated for sets that are not a single point (otherwise the code divides by zero). |
| C114 | Parameters of reflections, rotations and scalings build the matrix again | eigpar | proved | numpy.linalg.eig is an argument with [eigenvectors_of]: as many pairs as the dimension, exact complex eigenvectors of length 1, real ones for real values, and every real eigenvector a combination of the listed ones. A point whose last coordinate is 0 is None. The docstring's round trip is refuted for small angles, for factors near 1 and for the point (theorems _refuted). |
| C115 | Parameters of projections and shears build the matrix again | eigproj | proved | Same oracle as C114. An eye with infinite or undefined coordinates is Some None. Shears with a direction exactly in the plane (shear_matrix accepts 1e-6). The docstring's round trip is refuted at distance 1, for planes through the origin (C115_perspective, s = None) and for pseudo depth. |
| C116 | The factorisation refuses exactly data that is not finite or is negative | finite | proved | assert_all_finite, array2d, atleast2d_or_csr, check_non_negative and the first lines of fit_transform over binary floating-point numbers of any format (Flocq); the order of the additions of X.sum() is any tree that takes each element once. |
| C117 | Stacking rows and multiplying matrices do not depend on the storage | stack | proved | safe_vstack and safe_sparse_dot over reals for matrices that are dense or csr; the elements of the result are given by separate readings of the blocks and factors. |
| C118 | A configuration value is the one assigned last, a missing one is named, and data sets have distinct places | config | proved | The configuration is a dictionary with keys that are strings or tuples; the text of messages is modelled as far as it names the key. Refuted: the message is what is printed; every missing key gives NoConfigValueError. |
| C119 | Charts: sides, ticks, grids, meshes, colours, and where things are drawn | chart | proved | Axes are a record of what matplotlib is asked to remember; the order of sets is an oracle. Refuted: ticklabels removes labels; plot_var draws on the axes that are given. |
| C120 | image_sound_eval_sliding.py: distances of sliding windows of sound from pictures of examples | evalslide | proved | Whole script for any experiment with two modalities and one split. Recordings, librosa, scipy, expanduser and the numbers drawn are arguments of the model. Refuted: with --debug the plotting script finds more windows than rows; --debug after the name is taken for the directory. |
| C121 | logger.py: when two logs compare as equal | logeq | proved | Model logeq_model.v; all theorems unconditional for logs without arrays; == on arrays and other objects is an argument of the model. |
| C122 | icdl2013.py and image_sound.py: ten runs and a table of averages | tenths | proved | Data, random numbers and the order of dictionary keys are arguments; what is printed is modelled as names, averages and deviations, not as text. |
| C123 | The printed table of results shows each comparison in aligned columns, with the average and the deviation of its scores rounded to thousandths | table | proved | Numbers are real numbers: the rounding of averages and deviations to doubles before they are printed is not modelled. Python's str.center and the conversion '%.3f' are modelled by their documented results. |
| C124 | The commands of the launcher: what each one does, prints and saves | launch | proved | The package expjobs is not in the repository: the reads of the status of its pool are an arbitrary sequence, and the files are those found once the jobs have ended. argparse is not modelled: a command is its accepted arguments. What matplotlib raises for a path or a file of parameters is an argument. |
| C125 | Where the smoothed densities are | kdeval | proved | real numbers; the convolutions of scipy are their definitions; a bandwidth of 0 and samples outside the bounds are excluded |
| C126 | The printed summary of a log | printlog | proved | Numbers are real numbers: the rounding of averages and deviations to doubles before they are printed is not modelled. Python's conversion '%g' is modelled by its documented result. |
| C127 | Files written by the script of sliding windows | slidefiles | proved | plot_one_sentence is an argument of the model (its own properties are in the claims about plots_model). Audio files are assumed to have no '/' in the part before the first point; OSError is written IOError. The claim that every figure is kept is false when names agree up to the first point: C127_same_name_refuted. |
| C128 | Concatenations of concatenations | winnest | proved | Exact rational times. The statement about get_subwindow and copy is for basic windows that cut an interval exactly, as in C16 (with gaps below TOL it is false: C16_gap_refuted). |
| C129 | Windows written to wav files are read back | winnest | proved | wavfile.write followed by wavfile.read of the same path is assumed to give back rate and samples (wav_write). The claim that every concatenation can be saved is false: C129_nested_refuted. |
| C130 | Printed description of a motion database | motioninfo | proved | The printed text is the value of the model; the reading of the files is that of C60. C130_no_marker_refuted: no marker prints as one marker without name. |
| C131 | Annotations of the plot of a sentence | annotate | proved | Axes of matplotlib reduced to title, spans, texts and vertical limits; limits after drawing are any numbers. C131_redraw_refuted and C131_absolute_refuted show the two limitations of the claim. |
| C132 | XML element of a record | dom | proved | Nodes of minidom are trees; the text written by toxml is not modelled, no code of the project writes it. |
| C133 | The text printed about a sound database | dbtext | proved | sentence and its reading back, effect of each addition, and the text printed by statistics before it fails |
| C134 | Relative and absolute times of a window | wintime | proved | for every tree of windows that the constructors accept; exact rational times |
| C135 | The text of a sound record | rectext | proved | text, errors, reading back under conditions on the strings, and refutations without them; what format writes for lists is an oracle assumed injective |
| C136 | Lengths of vectors and vectors of length 1, along any axis | vnorm | proved | vector_norm and unit_vector of transformations.py on arrays of any shape, over the reals, with and without out; zero vectors excluded (numpy gives NaN). An axis of a 0-d array is an error as in current numpy. |
| C137 | Importing a compiled module over the Python functions | pyimport | proved | _import_module as a function of the global names and of what __import__ gives (argument). Attributes listed by dir are distinct and getattr succeeds. Two statements of the docstring are refuted: a second import, and a prefix that imported names start with. |
| C138 | A fit can end with a worse factorisation than it began with | nmfworse | proved | The decrease of the error by an update of a fit is refuted on a whole call of fit_transform (real arithmetic; the gap of 4 is far beyond rounding); exact factorisations are proved to be fixed points. |
| C139 | With a positive tolerance the first error bounds the number of iterations of a fit | nmfbound | proved | From the stopping rule (C43) and a lower bound of the divergence; real arithmetic. |
| C140 | A reconstructed modality has only its dictionary's share of the mass | share | proved | C140_mass bounds each row of a reconstructed modality by the largest share of the modality in a row of the dictionary; C140_trained: after train, by the data times their coefficient; C140_itself_refuted: a modality is not reconstructed from itself. |
| C141 | The coefficients of a sample depend on the other samples only by the number of iterations | rowwise | proved | C141_same_iterations: equal numbers of iterations give equal coefficients; C141_independent_refuted: adding two zero samples changes the coefficient of the first from at least 0.88 to at most 0.81. |

## Model files

Header comments of the model files: what each one models and what it leaves out.

* `munkres_model.v`: Model of multimodal/lib/munkres.py (Hungarian method). The model is parametric in the arithmetic on weights ([arith]), so that the same functions can be instantiated with exact rationals, with rounded arithmetic and with numbers including NaN. Python lists of fixed length n indexed by vertices (S, T, father, labels, matching) are modelled by total functions on [nat] with functional update; the code only indexes them with elements of range(n) or with values stored in them, and [munkres_proof] shows that these stay below n. [while] loops take a fuel argument and return [Err Timeout] when it is exhausted.
* `pairing_model.v`: Model of multimodal/pairing.py (except associate_to_window, which is in [framing_model] because it depends on the window classes). Iteration order of a set and the outcome of random.shuffle are oracles: [names] arguments are the list obtained from list(set(...)) (shuffled or not), and [shuf] arguments give the outcome of each call to random.shuffle. The theorems quantify over all of them.
* `evaluation_model.v`: Model of multimodal/evaluation.py. Numpy arrays are lists of rows. Distances are elements of any type with a strict comparison, so that the same theorems apply to every measure; NaN is not a value of such a type (see DESIGN.md). np.average of a list of booleans is a rational, [None] standing for the nan (and RuntimeWarning) that numpy gives on an empty list.
* `utils_model.v`: Model of multimodal/lib/utils.py.
* `logger_model.v`: Model of multimodal/lib/logger.py. Python objects are modelled with an explicit heap ([world]): logger objects and run dictionaries are mutable objects with identity, so that the sharing of run dictionaries between loggers (line 105) is visible. A method takes the world and returns the new world together with its result, so the state left behind by a method that raises is visible too. Simplifications: keys are strings; arrays are opaque values of a type [Arr] (dtype=object arrays, which numpy pickles, are excluded); floats are rationals and are read back from JSON exactly (Python prints the shortest representation that does; nan and infinities are excluded); print_* and log are not modelled, get_stats is in figures_model.v.
* `window_model.v`: Model of multimodal/lib/window.py (time windows). Times, rates and tolerances are exact rationals: the rounding of floating point operations is not modelled (the tolerances of the code exist because of it). NaN and infinite times are not modelled. Windows are immutable values in this file; the mutable objects are in winheap_model.v, which uses the functions below on the contents of each object. Samples have any type [A], objects attached to basic windows any type [O] ([None] is Python's None), paths any type [P]. Concatenations contain basic, array or wav windows; a concatenation inside a concatenation and write_as_wav are in winnest_model.v. __repr__ is not modelled.
* `framing_model.v`: Model of associate_to_window (multimodal/pairing.py:65-94). Frame indices have any type [I]; labels are integers. The outcome of random.shuffle on bucket number [k] is the oracle [shuf k].
* `winheap_model.v`: Time windows as mutable objects (multimodal/lib/window.py). The heap has four stores, each addressed by position: window objects that are not concatenations, Python lists of windows, concatenations (the attribute windows of each: a list, window.py:270), and array cells. The data of an array window is the list of the cells its numpy array refers to: a slice of an array is a view of the same cells. The pure functions of window_model.v give the new contents of each object. Not modelled: a concatenation inside a concatenation, assignment to the attributes windows and array, identity of the objects attached to windows. An operation on an object of the wrong kind is TypeError here.
* `nd_model.v`: Arrays of numbers (the part of numpy that is used by the code). An array has a shape and an element for each index; the elements are real numbers. Rounding, NaN and infinities are not modelled. The values of [el] outside of the shape have no meaning and are never compared (see [same]). The exception numpy.AxisError, a ValueError, is written ValueError.
* `metrics_model.v`: Model of multimodal/lib/metrics.py. Arrays are those of nd_model.v. Where the Python code divides by zero or takes the logarithm of a number that is not positive, numpy gives NaN or an infinity and a warning: those values are not modelled, and the theorems assume that they do not occur.
* `sparse_model.v`: Sparse matrices (the part of scipy.sparse that is used by the code). A csr_matrix is the list of its rows, each of which is the list of its stored elements (column, value) in the order of the arrays indices and data. As in scipy the columns of a row need not be sorted, a stored value may be zero and a column may be stored twice; indptr and the types of numbers are not modelled.
* `array_utils_model.v`: Model of multimodal/lib/array_utils.py.
* `nmf_model.v`: Model of multimodal/lib/nmf.py (class KLdivNMF). Numbers are reals; the error of an iteration is a number, prev_error is None for np.Inf. The state of an object is a record; a method returns the new state also when it raises. Data is dense or a csr_matrix (for other sparse formats atleast2d_or_csr makes a new csr_matrix, coo_tocsr for a coo_matrix). [rnd c] gives the numbers of the call number [c] of np.random.random. Messages, subit and random_state (not used by the code) are left out; n_components is not negative.
* `learner_model.v`: Model of multimodal/learner.py. Data matrices have two axes and are dense or sparse; names of modalities are strings. [rnd] gives the numbers of np.random.random, see nmf_model; [c] is the number of calls of np.random.random before.
* `experiment_model.v`: Model of multimodal/experiment.py. A loader is what it gives: the labels and the data matrix of its modality (dense or sparse, two axes). Numbers given by the user are integers and rationals; a float of Python is a rational. The attributes of an experiment are those of one call of run; writing of files is [save] of logger_model. Printing (log) is not modelled; print_result_table is in figures_model.v.
* `serial_model.v`: Model of the serialization of experiments (multimodal/experiment.py) and of the parameters of loaders (multimodal/db). Values are those of logger_model ([val], with the json round trip [json_rt]). Simplifications: modality names and object labels are strings; the data a loader caches ([_db], [_keep_idx]) is not part of the model of a loader; the contents of a file are the value json.load reads from it, or [None] for a text cut short by an exception of the encoder.
* `hac_model.v`: Model of the histograms of co-occurrences of multimodal/features/hac.py. Integers are unbounded (the codes returned by scipy's vq are 32 bits wide, so that code * n_quantized overflows for codebooks of more than 46340 elements). The functions of librosa and scipy (mel spectrogram, delta, vq) are arguments of the model: any function. Reading of wav files is not modelled.
* `quant_model.v`: Model of multimodal/lib/vector_quantization.py, and of the construction of codebooks in multimodal/features/hac.py. Numbers are reals: rounding, underflow of exp, NaN and infinities are not modelled. The functions of scipy and numpy.linalg (vq, kmeans2, svd) are arguments of the model. A two dimensional array is given by its number of columns and the list of its rows, which all have this length.
* `transf_model.v`: Model of the rotations of multimodal/lib/transformations.py and of the joint angles of multimodal/features/angle_histograms.py. Numbers are reals (no rounding, NaN or signed zeros). A quaternion is given by its four components (x, y, z, w), a 4 x 4 matrix by its elements. Other functions of transformations.py, which the project does not use, are in affine_model or not modelled.
* `angle_model.v`: Model of the angle histograms of multimodal/features/angle_histograms.py. Joint angles are modelled in transf_model.v. Numbers are reals. The functions of scipy (whiten, kmeans, vq) are arguments of the model. A database is its marker names and the arrays of samples of its records. db_to_binned_hist_matrix is in binned_model.v.
* `kde_model.v`: Model of the kernel density estimators of multimodal/lib/kde1d.py and kde2d.py. Numbers are exact reals: rounding, NaN and infinities are not modelled (so the bounds must not be equal). The bins of the samples are computed by np.floor, as floats; numpy before 1.12 accepts them as indices and later versions raise IndexError: [float_index] tells which. Convolutions by FFT and direct ones are the same. In Python 2 the divisions of kde2d.py are supposed to be divisions of floats.
* `sound_model.v`: Model of the sound databases (multimodal/db/models/sound.py). Values are those of logger_model, as for serialized experiments. Databases are objects with an identity ([d_id]), and a record refers to its database by this identity. Methods that change a database return it together with their result, so that what is left by an exception is visible. Simplifications: tags and names of speakers are strings; the tags of a record are Python integers; comparisons are those of Python 3; getDom, which builds XML, is in dom_model, and the printed text is not modelled.
* `acorns_model.v`: Model of the ACORNS databases (multimodal/db/acorns.py, db/models/acorns.py). [py3] tells the version of Python: `raise(ValueError, "...")` raises ValueError in Python 2 and TypeError in Python 3. Directories of CONFIG are arguments. Feature files are given by a function from paths to what loadmat(path)['hac'] gives; rows are opaque. XML files are given by what is read from them. Downloads are in download_model.v, codebooks in hacfeat_model.v.
* `motion_model.v`: Model of motion databases (multimodal/db/models/kinect_motion.py). Simplifications: the name, the names of markers and the descriptions of labels are strings, and what is read from a JSON file is checked to have these types (TypeError otherwise); arrays are opaque, with a shape and a reshape function, and are given back by np.load as they were given to np.savez; files are identified by the text of their path, and directories needed to write a file exist or are those made by create_text_subdirs. Printed text is in motioninfo_model.
* `objects_model.v`: Model of object databases (multimodal/db/models/objects.py, multimodal/db/objects.py). Simplifications: characters are code points below 256; int() and float() of a word are given ([int_of], [time_of] and [float_of]), except for int() of a string of decimal digits; numbers are exact; a text file is the list of its lines, as given by readlines; a sparse matrix other than GrowingLILMatrix is its value; tuples and lists of numbers are not distinguished in a view, since JSON writes both in the same way; names of objects are strings or None. WrongNumberOfFeatures is [WrongFile]. Printed text is not modelled.
* `plots_model.v`: Model of the plots of similarities along time (multimodal/plots.py:196-386). What is given to matplotlib is the value of [draw]; how it is put on the screen is not modelled. Numbers are rationals. A sliding window enters only by its absolute_start and absolute_end. The windows of the records are those of window_model. Of plot_rc only the three keys with boolean values are modelled; the others are colours and sizes.
* `sliding_model.v`: Model of samples/plot_image_sound_eval_sliding.py: test records and confusion matrix (lines 27-37, 138-141, 169-174). The script is made of statements, not of functions; each definition is the value of one variable. Records are known by their number in sound_loader.records (Record has no __eq__: equality is identity).
* `words_model.v`: Model of samples/plot_image_sound_eval_sliding.py: words and labels (lines 58-92). Counts are natural numbers until they are divided; floats are real numbers. Strings are strings of bytes: lower() changes the letters of ASCII only.
* `info_model.v`: Model of samples/plot_info_matrix.py: information of coefficients about labels (lines 66-107, 137-144). Floats are real numbers, or rational numbers for the assignment. np.bool is bool (it was removed in numpy 1.24, where line 78 raises AttributeError).
* `restore_model.v`: Model of the restoration of an experiment from its log (samples/plot_info_matrix.py, lines 113-121; experiment.py, lines 74-103). [names], [pairing] and [examples] are the values 'label_pairing', 'sample_pairing' and 'examples' of the log (lines 114 and 115 ask for 'label-pairing' and 'sample-pairing': see C96_hyphens_refuted).
* `vctk_model.v`: Model of the VCTK database (multimodal/db/models/vctk.py, db/vctk.py). The disk is given by what the functions of os and open return: [k_list] for os.listdir (None: OSError), [k_isdir], [k_isfile], [k_exists] for those of os.path, [k_text] for open(path).read() and [k_lines] for open(path).readlines() (None: IOError). os.listdir gives no empty name. OSError is IOError, as in Python 3.
* `figures_model.v`: Model of the figures and tables of recorded scores (plots.py, lines 13-190; lib/plot.py, lines 81-146; lib/logger.py, lines 65-67; experiment.py, lines 291-319 and 377-404). A figure is the list of what is drawn in it; axes, legends, fonts, titles and the rendering of matplotlib are not modelled, and a box is given by the values that it summarises. Numbers are real numbers, without rounding.
* `launcher_model.v`: Model of the launcher of experiments (samples/launcher.py) and of the scripts that run one experiment (samples/two_modalities.py, samples/three_modalities.py). The numbers of components Ks and the number N_RUN of repetitions are arguments. The package expjobs is not in the repository: a job is its name and its script, [config] gives the path of its file of parameters, and its helper run_class is taken to load the experiment from that file, to give it the directory and the name of the job (set_out_path_and_name, experiment.py:38-39) and to call run. The jobs of a pool are run one after the other, in any order; a job that raises does not stop the others. Dictionaries are in the order of their insertion. The arguments of the command line, the saving of figures and the display of the status of jobs (lines 22-66, 181-195, 238-253) are in launch_model.v; the parameters of matplotlib are not modelled.
* `choreo2_model.v`: Model of the second choreography dataset (multimodal/db/choreo2.py), with the paths of multimodal/local.py and the counting of samples of multimodal/db/models/loader.py. Databases of motions and their files are those of motion_model.v, histograms those of angle_model.v. An array is either the samples of a motion (time, marker, seven numbers) or the table of features; shape and reshape of motion_model.v are not used when a database is loaded without verbose. A path that was given is the text of the path; the user directory [home] comes from the environment. Downloads and printed text are not modelled here.
* `choreo1_model.v`: Model of the first choreography dataset (multimodal/db/choreo1.py). The disk is that of motion_model.v, arrays are opaque. Labels and the names of markers are given back as they are in the JSON file. Simplifications: a data-id which is neither an integer nor a string, and a value of records or marker-names which is neither a list nor a string, are refused with TypeError.
* `download_model.v`: Model of the downloads of datasets (multimodal/lib/net.py, the download functions of multimodal/db/choreo2.py, acorns.py and objects.py, and the script multimodal/db/scripts/download_dbs). The disk has files, whose contents are opaque, and directories, both identified by the text of their path. [fetch] is what the server answers for an address: what is left in the file, if anything, and whether urlretrieve succeeds (an interrupted transfer leaves a part of the file and raises). Addresses give the same answer each time.
* `binned_model.v`: Binned histograms of joint angles (multimodal/features/angle_histograms.py). Lines 82-85 and 97-155; the rest of the file is in transf_model and angle_model. As in kde_model, [float_index] tells that numpy accepts indices that are floating point numbers, as it did before 1.12. These versions of numpy also accept the iterators given to hstack and vstack under Python 3, which is why the two Pythons do the same here; recent ones refuse them (TypeError), which is not modelled: they fail anyway.
* `hacfeat_model.v`: Codebooks and features of sounds (multimodal/features/hac.py:100-147 and 199-201, db/acorns.py:124-130, db/vctk.py:41-44, db/scripts/build_codebook, db/scripts/build_acorns_features). Sounds, their coefficients, kmeans2 and vq are arguments of the model; hac is in hac_model, iterative_kmeans in quant_model (here it is an argument as well, since the mode in use is 'raw'). The prints are not modelled, and of a file .mat only the items 'codebooks' and 'hac' are ('mfcc_params' is not). Files .mat and JSON files are kept apart: the script writes the first and reads the second.
* `parse_model.v`: Scripts that write the descriptions of the sound corpora (multimodal/db/scripts/parse_acorns, multimodal/db/scripts/parse_vctk). The argument of the script is None or the directory to write to. [abspath] is os.path.abspath. The prints are not modelled; the change of sys.path has no effect here. A directory that does not exist is not modelled: every file can be written.
* `kdediv_model.v`: Entropy and divergence of two dimensional samples (multimodal/lib/kde2d.py:131-176). Real numbers instead of floats, as in kde_model.
* `affine_model.v`: Homogeneous matrices of multimodal/lib/transformations.py: translations, reflections, rotations about an axis, and the functions that compose and compare matrices. Numbers are reals (no rounding, NaN or infinity): a division by zero, such as unit_vector of the zero vector, is not modelled. A vector is given by its three coordinates; further coordinates of points and directions are not used by the code (v[:3]). The functions that return values of eig are not modelled.
* `affine2_model.v`: Further matrices of multimodal/lib/transformations.py: scalings, projections, shears, clip matrices and the matrix of a crystallographic cell. As in affine_model: numbers are reals, divisions by zero and roots of negative numbers are not modelled.
* `arcball_model.v`: Interpolation of rotations, random rotations and the virtual trackball of multimodal/lib/transformations.py. Numbers are reals (no rounding or infinity). The only place where a division by zero can be reached from unit axes, the last line of arcball_constrain_to_axis, is made visible: there the code gives a vector of NaN and the model [None]. Other divisions by zero (unit_vector of a zero vector or quaternion) are not modelled. Points and centers are Python numbers, so a zero radius raises ZeroDivisionError (numpy numbers would give infinities). Random numbers are arguments.
* `objparse_model.v`: The script that parses the objects dataset (multimodal/db/scripts/parse_objects) and the functions that load it (multimodal/db/objects.py:39-49, 100-110). [abspath] is os.path.abspath; [other] says which paths exist that are neither a JSON nor a mat file of the disk. The prints are not modelled. A directory that does not exist is not modelled: every file can be written.
* `decompose_model.v`: compose_matrix and decompose_matrix of multimodal/lib/transformations.py. Numbers are reals; in floating point cos(asin(1)) is not zero, so that the last case of the angles is not reached there. numpy.linalg.inv is an argument; numpy.linalg.det is the determinant. Triples of numbers are vectors, perspective is a quadruple.
* `superpose_model.v`: superimposition_matrix of multimodal/lib/transformations.py. A vector set, an array of shape (3, n) or (4, n), is given by its n columns, without the fourth component (v[:3]). Numbers are reals; numpy.linalg.svd and numpy.linalg.eig are arguments, numpy.linalg.det is the determinant. The ratio of a scaling is not modelled if it is a division by zero.
* `eigpar_model.v`: The parameters of a homogeneous matrix from its eigenvectors: multimodal/lib/transformations.py, reflection_from_matrix, rotation_from_matrix, scale_from_matrix, projection_from_matrix and shear_from_matrix. numpy.linalg.eig is an argument: for a dimension and a matrix, the pairs of eigenvalues and columns of V in the order of the answer, with real and imaginary parts. Numbers are reals. A point is read from the homogeneous vector point / point[3]; where point[3] is 0, numpy gives inf and nan with a warning: [None] stands for such a point. Other divisions by zero are not modelled, except where said. The fourth coordinate of a point, which is 1, is left out.
* `finite_model.v`: Model of the checks of lib/sklearn_utils.py and lib/nmf.py on floating-point data. Numbers are binary floating-point numbers with [prec] bits and largest exponent [emax] (11, 16 for half, 24, 128 for single, 53, 1024 for double precision), with one NaN; additions round to the nearest. Integers are kept apart since their type is not one of np.typecodes['AllFloat']; complex numbers, np.matrix and the arguments dtype, order and copy (never given by the callers) are left out.
* `stack_model.v`: Model of safe_vstack (lib/array_utils.py) and of safe_sparse_dot (lib/sklearn_utils.py) for matrices that are dense or sparse. Numbers are reals. Sparse matrices are csr_matrix objects, see sparse_model.
* `config_model.v`: Model of lib/config.py, of local.py and of the default places of the data. Keys are strings, tuples of strings or values that cannot be keys of a dictionary. The messages of other exceptions than NoConfigValueError are left out.
* `chart_model.v`: Model of lib/plot.py: colours, legends and axes (plot_var and boxplot on data are in figures_model). What matplotlib keeps about axes is a record: it is asked only to remember what it is given. Sizes, colours of lines and the object that is returned are left out.
* `evalslide_model.v`: Model of samples/image_sound_eval_sliding.py (lines 34-132). The script is made of statements, not of functions: the definitions below are its parts in their order. The recordings (wavfile.read), the functions of librosa and scipy, the numbers drawn by the factorisations, the order of the keys of a dictionary, the working directory and os.path.expanduser are arguments of the model. Not modelled: what is printed, the temporary directory (which is not used), and that the windows are handed to several processes (Pool.map keeps their order and raises what a call raises).
* `logeq_model.v`: Model of Logger.__eq__ (multimodal/lib/logger.py:25-32) and of == on the values of a log. Lists and dictionaries compare their elements with 'is or =='. A value without arrays, and without nan, which floats here never are, is equal to itself, so 'is' matters only for arrays: it is modelled for the dictionaries of runs, which loggers share by reference, and for a logger compared with itself, but not for one array object stored in two dictionaries. What == gives when one of the two values is an array or another object is an argument of the model ([foreign]): a truth value, or an exception such as the ValueError of numpy for the truth value of an array.
* `tenths_model.v`: Model of samples/icdl2013.py and samples/image_sound.py. The two scripts differ by the modalities and their loaders only. The order of the keys of a dictionary is an argument of the model ([first_first]), and so are the data and everything that is random (see experiment_model.v).
* `table_model.v`: Model of the printed table of results (experiment.py, lines 295-319 and 381-404). [figures_model.print_two] and [print_three] give the names and numbers of each line; here is the text. The text of what was printed is a list of lines. Numbers are real numbers: the rounding of the average and of the deviation to doubles is not modelled, and neither is nan (the average of no run, see [np_mean]).
* `launch_model.v`: Model of the command line of the launcher (samples/launcher.py, lines 22-66, 122-127 and 181-253); the experiments, the jobs and the figures are in launcher_model.v. The package expjobs is not in the repository. The attribute status of a pool is compared with FAILED and printed, status_counts is a list of pairs of texts: both are read again at each use, and [st] and [counts] give the value of each read, counted from 0 at the start of the command. The call pool.run() may return before the jobs have ended: the files are those found once they have. A command is the arguments that argparse accepts. matplotlib is known by what it raises for a file of parameters ([rc_file]) or for a path to write to ([savefig]).
* `printlog_model.v`: Model of the printed summary of a log (multimodal/lib/logger.py:69-77). The text of what was printed is a list of lines. Numbers are real numbers: the rounding of the average and of the deviation to doubles is not modelled.
* `slidefiles_model.v`: Model of samples/plot_image_sound_eval_sliding.py: the files that are written (lines 19, 97-101, 122-123, 138-166). Records are known by their number in sound_loader.records, as in sliding_model; a record has an audio file and a transcription. plot_one_sentence (plots_model) is an argument. A disk is its directories, its text files and its figures. OSError of os.mkdir is written IOError, its other name under Python 3. Simplification: the directory of a figure is taken to be the one it is joined to, so audio files are assumed to have no '/' in the part of their name before the first point.
* `winnest_model.v`: Model of concatenations that contain concatenations (multimodal/lib/window.py:264-329), and of the wav files that windows are written to (lines 191-192 and 338-342). The windows of window_model.v are the leaves. As there, times are exact rationals and windows are values that do not change.
* `motioninfo_model.v`: Model of the text printed about a motion database (multimodal/db/models/kinect_motion.py). A function gives the text it prints and its result; what is printed before an exception stays printed.
* `annotate_model.v`: Model of the annotations of a plot of similarities (multimodal/plots.py:319-328, 369-386). Of the axes of matplotlib are modelled the title, the spans drawn by axvspan, the texts written by annotate and the limits of the vertical axis; axvspan and annotate leave these limits unchanged. The limits that matplotlib chooses when it draws are any numbers.
* `dom_model.v`: Model of the XML element of a record (multimodal/db/models/sound.py:61-77). Nodes of xml.dom.minidom are trees; an attribute takes any value, a text node only takes a string.
* `dbtext_model.v`: Model of the text printed about a sound database (multimodal/db/models/sound.py). A function gives the text it prints and its result; what is printed before an exception stays printed.
* `wintime_model.v`: Model of relative and absolute times of windows (multimodal/lib/window.py:58-92). For all windows, concatenations included; times are exact rationals.
* `rectext_model.v`: Model of the text of a record (multimodal/db/models/sound.py:37-46).
* `vnorm_model.v`: Model of vector_norm and unit_vector (multimodal/lib/transformations.py:1535-1615). Arrays of any number of axes, over the real numbers; what a division by zero gives is left open. A float is an array without axis.
* `pyimport_model.v`: Model of _import_module (multimodal/lib/transformations.py:1681-1705). The global names are a partial function from names to values. What __import__ gives is an argument: nothing if it raises ImportError, else the attributes of the module, in the order of dir, with their values (getattr of a name listed by dir is taken to succeed).

## Code that is not modelled

* `multimodal/lib/transformations.py`: the functions that the project does not call and
  that are not named in the table.
* What matplotlib does with the values that `multimodal/lib/plot.py` gives it (it is assumed to
  remember them), and constants of style.
* What a server answers to `urlretrieve` (an oracle), command line scripts in `samples/` except the parts
  named in the table, `setup.py`, tests.
* `mfcc` (librosa filters) and the reading of wav samples: opaque functions.
* The text of progress messages (the printed table of results is modelled, C123).
* The package `expjobs` used by `samples/launcher.py`: jobs, their files of parameters
  and `run_class` are modelled from the way in which they are used; pools run jobs one
  after the other in any order.

## Testing of the theorems

`seeded/LOG.jsonl` records edits of the model that imitate realistic bugs, made in
a scratch copy: the definition, the edit, the claim it breaks, and the theorems
that no longer go through.

## Trusted base

* Coq's kernel.
* The faithfulness of the `*_model.v` files to the Python text, with the
  simplifications listed above and in the comments.
* The meaning of the statements: `*_spec.v` and `*_props.v`.
* For theorems over `R`: the axioms of Coq's standard library of real numbers
  and classical logic.  No axiom is added by this development.


### Print Assumptions

* No axiom ("Closed under the global context"): C01_empty_raises, C01_square_optimal, C02_tall_optimal, C02_wide_optimal, C03_nan_diverges, C03_shape_any_rounding, C04_all_perms_complete, C04_all_perms_once, C04_brute_force_agrees, C05_default_size_fails, C05_reverse_inverts, C06_labels_faithful, C07_each_once_and_complete, C08_errors, C09_default_count, C09_organize, C09_positions, C100_names, C100_plan, C100_prepare, C101_features_and_labels, C101_files, C101_no_name, C101_stale, C101_stale_refuted, C102_default, C102_from_files, C102_loaded, C102_missing, C102_missing_array, C102_python3_never, C102_python3_refuted, C102_unknown, C103_acorns, C103_choreo2, C103_frame, C103_frame_acorns, C103_frame_acorns_files, C103_frame_data, C103_frame_objects, C103_halfway_refuted, C103_objects, C103_places, C103_refused, C103_script_refuted, C103_year_refuted, C105_acorns_codebook, C105_buildable, C105_codebook_file, C105_codebooks, C105_empty_speaker, C105_equal_shapes, C105_features, C105_features_labels, C105_no_codebook, C105_others_kept, C106_acorns, C106_acorns_first, C106_acorns_second, C106_vctk, C106_vctk_missing, C106_vctk_sounds, C107_entropy_refuted, C10_bad_frame_label, C10_equal_label_refuted, C10_frames_labelled, C10_runs_out, C118_distinct, C118_get, C118_missing, C118_names, C118_no_entry, C118_other_keys, C118_places, C118_printed_refuted, C118_tuple_refuted, C118_value, C119_grid, C119_legend, C119_plot_var_area, C119_plot_var_axes_refuted, C119_spines, C119_ticklabels_refuted, C119_unknown, C11_basic_subwindow, C11_out_of_bounds, C120_counts, C121_arrays, C121_equal, C121_loaded, C121_self, C121_symmetric, C121_transitive, C127_few, C127_no_directory, C127_read_back, C127_same_name_refuted, C127_stops, C127_written, C128_bounds, C128_construct, C128_copy, C128_mean_time, C128_move, C128_samples, C128_subwindow, C129_nested_refuted, C129_save_errors, C129_save_wav, C129_saves, C129_write_as_wav, C12_constructor, C12_largest_subwindow, C12_out_of_bounds, C130_empty, C130_info, C130_load, C130_load_fails, C130_no_marker_refuted, C130_read_back, C130_result, C131_absolute_refuted, C131_error, C131_one_height, C131_one_sentence, C131_redraw_refuted, C131_undrawn, C131_without_record, C132_element, C132_missing_refuted, C132_read_back, C132_same, C132_speaker_refuted, C132_tags, C133_keyword, C133_read_back, C133_record, C133_refused, C133_sentence, C133_speaker, C133_statistics, C134_inside, C134_inverse, C134_move, C135_error, C135_quote_refuted, C135_read_back, C135_style_refuted, C135_text, C137_clash_refuted, C137_default, C137_failed, C137_no_prefix, C137_prefix, C137_twice_refuted, C13_copy, C13_histories, C14_wav_array_agree, C15_align, C15_align_default, C15_construct, C15_first_refuted, C15_long_windows, C15_lookup, C15_lookup_first, C15_out_of_bounds, C16_covers_range, C16_gap_refuted, C16_lookup_agrees, C17_full_windows, C17_partial_windows, C18_frames_tile, C18_short_interval, C18_zero_rate, C19_align_duplicates_refuted, C19_align_touches_only_listed, C19_align_value, C19_array_samples_refuted, C19_concat_array_independent, C19_concat_copy_value, C19_concat_subwindow_value, C19_copy_independent, C19_copy_keeps_original, C19_copy_value, C19_move_value, C19_programs, C19_reachable_heaps, C19_subwindow_at_is_alias_refuted, C19_subwindow_independent, C19_subwindow_keeps_original, C19_subwindow_value, C20_distinct_valid, C20_first_occurrences, C21_nearest, C21_no_example, C22_evaluate_NN, C22_nearest_share, C22_score_fraction, C22_score_truncates, C22_scores_from_dists, C22_share, C22_square, C23_counts_iff_no_repeat, C23_presence, C24_match_means_above, C24_score, C24_top_k, C24_true_above_false, C26_leave_one_out, C27_delayed_circular, C27_delayed_zeros, C27_filter_cont, C27_filter_cont_bounds, C27_other_padding_fails, C27_velocities, C27_zero_delay_zeros_fails, C28_distribute, C28_distribute_nesting, C28_filter_bound, C28_flatten, C28_flatten_error, C29_get_last_value, C29_get_values, C29_key_sets, C29_new_run, C29_reachable_wf, C29_store, C29_store_frame, C29_store_global, C29_write_once, C30_equality_refuted, C30_npz_suffix_fails, C30_roundtrip, C30_without_arrays, C31_archive_cut, C31_atomic_refuted, C31_ends, C31_json_cut, C31_mixture, C31_unreadable, C32_merge, C32_merge_empty, C32_shared_runs_refuted, C35_three_keys, C35_two_keys, C36_constructed, C36_equal, C36_file, C36_missing, C36_missing_key, C36_n_samples, C36_no_loader, C36_not_pair, C36_unknown_dataset, C36_unwritable, C38_partition, C38_range, C38_unknown, C54_blocks, C54_counts, C54_hac, C54_lag_zero, C54_negative_lag, C54_no_lags, C54_unique, C54_wrong_code_refuted, C56_round_trip, C56_round_trip_error, C57_add_record, C57_consistent, C57_duplicates, C57_frame, C57_get_tag_add, C57_ids_kept, C57_negative_speaker, C57_sort, C57_tags_checked_refuted, C58_no_audio, C58_round_trip, C59_converse_refuted, C59_no_name, C59_operators, C59_ties, C59_weak_order, C60_bad_label, C60_extend, C60_extend_records, C60_int_extend, C60_int_keys, C60_missing, C60_round_trip, C60_subdirectory_refuted, C60_text_keys, C60_unknown_type, C61_four_views, C61_frame_dict, C61_line, C61_line_errors, C61_name_once, C61_read, C61_read_errors, C62_aligned, C62_any_order_refuted, C62_features_and_labels, C62_file_names, C62_last_speaker, C62_loaded, C62_mismatch, C62_positions, C62_same_positions, C62_short, C62_speaker, C62_year, C66_score, C66_shapes, C66_threshold, C67_label_reco, C68_error, C68_meta_map, C68_nesting, C69_normalize, C69_normalize_flat, C70_failed_save, C71_cut_then_load, C72_files_in_order, C72_rates_differ, C73_mid_sample, C73_sample_times, C83_counts, C83_size, C84_statistics, C85_distinct, C85_path, C86_from_root, C86_twice, C86_wrong_year, C87_mat, C87_text, C87_text_not_loaded, C88_bad_name, C89_line_constructed, C90_one_sentence, C90_points, C90_sizes, C91_drawn, C91_interactive, C91_keys, C91_outside, C91_short_refuted, C91_slider_refuted, C92_default_refuted, C92_names_refuted, C92_sentence_names_refuted, C93_confusion, C94_counts_unique, C94_lower, C95_plot, C95_plot_tall, C97_audio, C97_bad_line, C97_built, C97_codebook, C97_everything_refuted, C97_extension, C97_missing, C97_name, C97_other, C97_reload, C98_colours, C98_combinations, C98_pairs.
* `ClassicalDedekindReals.sig_forall_dec`: C109_translation_from, C117_dot_refused, C49_matrix_marginals, C88_aligned, C88_no_features, C88_not_computed, C88_unknown_feature, C89_save_early, C89_save_load.
* `ClassicalDedekindReals.sig_forall_dec`, `FunctionalExtensionality.functional_extensionality_dep`: C108_features, C108_guard_refuted, C108_loader, C108_loader_bad, C108_no_frame, C108_no_source, C108_parse, C108_present, C109_concatenate, C109_same, C109_same_symmetric_refuted, C109_translation, C110_clip, C110_clip_box, C110_clip_pyramid, C110_clip_refused, C117_dot, C117_vstack, C117_vstack_refused, C119_cmap, C119_colors, C119_mesh, C119_plot, C123_number, C123_order, C138_exact_stays, C38_all_dicos, C38_slice_back, C38_stack, C38_stack_none, C38_stack_rows, C38_stacked_dicos, C38_unknown_dicos, C38_unknown_stack, C39_modality, C40_update, C42_update, C44_Q, C44_masked_product, C51_real_sparsity, C52_rows_padded, C53_dense, C53_determined, C53_normalize_sum, C53_normalize_sum_axis, C53_sparse, C53_sums, C55_associate, C55_distances, C61_by_frame, C61_by_frame_refused, C63_inverse, C63_multiply, C65_bins_1d, C65_bins_2d, C65_errors_1d, C65_errors_2d, C65_recent_numpy, C65_recent_numpy_2d, C65_unchecked_bounds_refuted, C76_one_component_refuted, C76_scale, C89_build, C89_build_refused, C94_cases, C94_table, C94_words, C98_boxes, C98_merged, C98_python3_refuted.
* `ClassicalDedekindReals.sig_forall_dec`, `ClassicalDedekindReals.sig_not_dec`, `FunctionalExtensionality.functional_extensionality_dep`: C100_no_runs, C109_quaternion, C109_quaternion_refuted, C109_reflection, C109_reflection_twice, C109_rotation, C109_rotation_add, C109_rotation_origin, C109_rotation_same, C110_cell, C110_orthogonal, C110_parallel, C110_perspective, C110_pseudo, C110_pseudo_depth, C110_scale, C110_scale_direction, C110_scale_origin, C110_shear, C110_shear_accepted, C110_shear_volume, C110_shear_volume_refuted, C111_constrain, C111_constrain_refuted, C111_down, C111_down_axis, C111_drag, C111_nearest, C111_random, C111_random_length, C111_sphere, C112_image, C112_image_affine, C113_accepts, C113_best, C113_decompositions, C113_exact, C113_factor_refuted, C113_methods, C113_motion, C113_rejects, C113_rigid, C114_axis, C114_enlarge, C114_near_one_refuted, C114_not_reflection, C114_point_refuted, C114_reflection, C114_stretch, C115_distance_refuted, C115_orthogonal, C115_parallel, C115_perspective, C115_pseudo, C115_pseudo_refuted, C123_one_refuted, C125_values_1d, C125_values_2d, C136_no_axis, C136_norm_all, C136_norm_axis, C136_norm_out, C136_norm_out_refused, C136_norm_out_shape, C136_norm_vector, C136_number, C136_unit_all, C136_unit_axis, C136_unit_number, C136_unit_out, C136_unit_out_vector, C136_unit_vector, C50_cosine_laws, C50_cosine_scale, C50_cosine_value, C50_frobenius_metric, C50_frobenius_triangle, C50_frobenius_value, C51_bounds, C51_constant, C51_one_hot, C55_hard, C55_ratio, C64_compose, C64_rotation, C74_cosine, C74_frobenius, C74_lengths_checked_refuted, C79_count, C79_modes, C79_split, C80_euler_matrix, C80_euler_rotation, C80_matrix_of_quaternion, C80_quaternion_from_euler, C80_quaternion_of_matrix, C81_smooth_1d, C81_smooth_2d, C98_2k_graphs, C98_curve, C98_k_graphs, C98_metric_refuted, C98_missing, C98_ragged, C99_missing, C99_one_refuted, C99_stats.
* `ClassicalDedekindReals.sig_forall_dec`, `ClassicalDedekindReals.sig_not_dec`, `Classical_Prop.classic`, `FunctionalExtensionality.functional_extensionality_dep`: C100_figures, C100_figures_refuted, C100_job, C100_missing, C101_built, C101_kept, C101_pipeline, C101_python3, C101_suffix_refuted, C104_alone, C104_columns_refuted, C104_few_bins, C104_matrix, C104_recent_numpy, C107_errors, C107_nonnegative_refuted, C107_opposite, C107_recent_numpy, C107_same_samples, C111_calls, C111_next, C111_next_arc, C111_next_still, C111_no_axes, C111_slerp, C111_slerp_close, C111_slerp_ends, C111_slerp_odd_refuted, C111_slerp_unit, C111_steady, C112_accepts, C112_first_rows, C112_parts, C112_rejects, C112_round_trip, C112_same_matrix, C112_same_parts, C112_same_scale_refuted, C112_tiny_perspective_refuted, C112_zero_scale, C114_rotation, C114_small_angle_refuted, C115_shear, C116_array, C116_coo, C116_coo_finite_refuted, C116_coo_once, C116_csr, C116_csr_elements_refuted, C116_error, C116_refused, C120_arguments, C120_debug_last_refuted, C120_features, C120_no_codebooks, C120_plot_rows, C120_plot_rows_debug_refuted, C120_short, C120_sliding, C122_few, C122_icdl2013, C122_image_sound, C122_tenth, C123_aligned, C123_three_refuted, C123_two, C124_frame, C124_last_line_refuted, C124_no_plot_refuted, C124_python3_refuted, C124_resume_refuted, C124_run_lines, C124_run_watches, C124_session, C124_status, C124_watch, C124_watch_forever, C125_grid_refuted, C126_all, C126_line, C126_loaded, C126_missing, C126_no_runs, C126_number, C126_stops, C138_fit_raises_error_refuted, C139_errors, C139_iterations, C139_no_warning, C140_itself_refuted, C140_mass, C140_trained, C141_independent_refuted, C141_same_iterations, C25_splits, C33_aligned, C33_distinct, C33_rows, C33_succeeds, C34_splits, C35_reserved_name, C35_three_with_two, C37_balance, C39_composition, C39_cross_modal, C39_wrong_columns, C40_call, C40_zeros, C41_transform, C41_unnormalised_refuted, C41_update, C41_update_bound, C42_fit, C43_arguments_ignored, C43_end, C43_negative_data, C43_no_iteration, C43_run, C44_error, C44_unsorted_refuted, C45_after_transform, C45_features_differ, C45_not_random, C45_transform_keeps, C45_without_transform, C46_eps_ignored, C46_lower_bound, C46_lower_bound_axis, C46_nonnegative_refuted, C46_normalize, C46_reversed, C46_self, C46_symmetrised, C46_symmetrised_normalize, C46_value, C46_value_axis, C46_zero_first, C47_bounds, C47_invariant, C47_max_iff_uniform, C47_zero_iff_deterministic, C48_accepted, C48_nonneg_zero, C48_refused, C48_transpose, C48_value, C49_bad_axis, C49_one_axis, C49_refused, C49_value_and_bounds, C55_soft, C56_delay_ignored, C56_dropped_centroid, C56_frequencies, C56_histograms, C56_python3, C56_python3_error, C56_velocities, C63_joints, C63_meaning, C63_missing_joint, C63_rescaled, C63_rescaled_all, C63_rescaled_refuted, C63_turned, C64_gimbal, C64_round_trip, C64_sxyz, C74_kl, C75_internal, C75_mass, C75_reconstruction, C77_missing_matrix_refuted, C77_train, C77_wrong_shape, C78_run, C78_saved, C82_nonnegative_refuted, C82_opposite, C82_same_samples, C93_labels, C93_perfect, C93_position, C93_records_refuted, C93_train_refuted, C94_information, C95_information, C95_matrix, C95_no_sample, C96_hyphens_refuted, C96_keys, C96_restored, C96_stored, C98_three, C98_two, C99_three_refuted, C99_two.
