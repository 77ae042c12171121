{
 "claims": [
  {
   "property": "C01",
   "status": "proved",
   "theorems": [
    "C01_insertPoint",
    "C01_after_classesCopy_refuted"
   ],
   "note": "Full behaviour of insertPoint under the guard that the counters are as long as the class list; C01_after_classesCopy_refuted shows the guard fails after classesCopy (out-of-bounds write)."
  },
  {
   "property": "C02",
   "status": "proved",
   "theorems": [
    "C02_history",
    "C02_clear_refuted",
    "C02_relabel_new_refuted",
    "C02_remove_all_refuted",
    "C02_relabel"
   ],
   "note": "Every history of allowed calls (insert, remove, removeMany, shuffle, removeFeatures, relabel, recount, resetIndex) keeps counts exact. Excluded and refuted: insert after clear(), relabelling to a new label (undefined behaviour), removing all points."
  },
  {
   "property": "C03",
   "status": "proved",
   "theorems": [
    "C03_removePoint",
    "C03_removePoint_result",
    "C03_removePoint_reject",
    "C03_absent_refuted",
    "C03_shuffled_refuted",
    "C03_index_refuted"
   ],
   "note": "Exact removal for ascending ids; result characterised for any id order; absent interior id is undefined behaviour, present id refused after shuffle, index corruption: refuted."
  },
  {
   "property": "C04",
   "status": "proved",
   "theorems": [
    "C04_removePoints",
    "C02_remove_all_refuted"
   ],
   "note": "Proved when some point stays; removing every point is refuted in C02_remove_all_refuted."
  },
  {
   "property": "C05",
   "status": "proved",
   "theorems": [
    "C05_removeFeatures",
    "C05_removeFeatures_refuse",
    "C05_duplicate_refuted",
    "C05_names_reset_refuted"
   ],
   "note": "Proved when no existing name is requested twice; repeated names and later insertions refuted."
  },
  {
   "property": "C06",
   "status": "proved",
   "theorems": [
    "C06_insertFeatures",
    "C06_insertFeatures_renumber",
    "C06_insertFeatures_absent"
   ],
   "note": "Good and bad requests both covered, with and without keepIndex."
  },
  {
   "property": "C07",
   "status": "proved",
   "theorems": [
    "C07_selectFeatures",
    "C07_zero_refuted",
    "C07_names_refuted"
   ],
   "note": "Proved for requests naming existing features; name 0 and result feature names refuted."
  },
  {
   "property": "C08",
   "status": "proved",
   "theorems": [
    "C08_copy_value",
    "C08_independent",
    "C08_copy_reads",
    "C08_assign_shares"
   ],
   "note": "heap model of shared points: after copy(), any two histories run on source and copy, interleaved in any way, read exactly what they would read alone; assignment shares (proved as the stated contrast)"
  },
  {
   "property": "C09",
   "status": "proved",
   "theorems": [
    "C09_join",
    "C09_names_refuted",
    "C09_loaded_refuted",
    "C09_empty_refuted"
   ],
   "note": "Proved for equal dimensions and a dataset whose counters were not marked computed; class-name alignment, join after load and join into empty refuted."
  },
  {
   "property": "C10",
   "status": "proved",
   "theorems": [
    "C10_stratified"
   ],
   "note": "All shuffles, all k, labels integral."
  },
  {
   "property": "C11",
   "status": "proved",
   "theorems": [
    "C11_unstratified"
   ],
   "note": "All shuffles, all k."
  },
  {
   "property": "C12",
   "status": "proved",
   "theorems": [
    "C12_splitByClasses"
   ],
   "note": "Proved for every dataset meeting the class invariants."
  },
  {
   "property": "C13",
   "status": "proved",
   "theorems": [
    "C13_shuffle"
   ],
   "note": "std::shuffle is an arbitrary permutation."
  },
  {
   "property": "C14",
   "status": "proved",
   "theorems": [
    "C14_classesCopy",
    "C14_counts_refuted"
   ],
   "note": "Points as stated; class counters of the result are refuted."
  },
  {
   "property": "C15",
   "status": "proved",
   "theorems": [
    "C15_normalize",
    "C15_euclid",
    "C15_taxicab"
   ],
   "note": "every well-formed real dataset and every p>0; also spelled out for p=2 and p=1 without powers; no division by zero occurs. Coordinates are reals, not doubles"
  },
  {
   "property": "C16",
   "status": "proved",
   "theorems": [
    "C16_replacement",
    "C16_hangs_refuted",
    "C16_one_class",
    "C16_eligible_refuted",
    "C16_too_many",
    "C16_fresh"
   ],
   "note": "with replacement: proved for every stream that the sample is well formed, holds each class's share and leaves all other datasets alone. Without replacement on one class: returns for every stream that keeps giving every number, the sample being the numbers at their first occurrence. Refuted: without replacement the call never returns with two or more classes; only the first share points of a class can be drawn"
  },
  {
   "property": "C17",
   "status": "proved",
   "theorems": [
    "C17_csv_round_trip",
    "C17_csv_digits_refuted",
    "C17_csv_exponent_refuted",
    "C17_csv_label_refuted",
    "C17_write_empty_refuted"
   ],
   "note": "Round trip proved for values with at most six significant digits shown without exponent, abs(label) < 10^6, and no label but 1 first seen after -1; refuted outside (rounding to six digits, exponent dropped by the reader, label rewritten to 1) and for points without features (out of bounds)."
  },
  {
   "property": "C18",
   "status": "proved",
   "theorems": [
    "C18_counts",
    "C18_words",
    "C18_integers",
    "C18_function_refuted",
    "C18_injective_refuted",
    "C18_throws_refuted"
   ],
   "note": "Counts and classes proved for every sequence; function and injective proved for words and for integers under the guard; refuted in general (-1 followed by words, mixed numbers and words, fractions)."
  },
  {
   "property": "C19",
   "status": "proved",
   "theorems": [
    "C19_type",
    "C19_extension",
    "C19_other",
    "C19_inside_refuted",
    "C19_no_dot_refuted"
   ],
   "note": "Holds for paths whose extension is a type name, contains none, or contains one (the last to end wins). Refuted: extensions merely containing a type name are accepted; a path without a dot is read out of bounds."
  },
  {
   "property": "C20",
   "status": "proved",
   "theorems": [
    "C20_tokenize",
    "C20_again"
   ],
   "note": "for every string and separator; the tokens are characterised by the specification's runs, and joining and tokenizing again gives them back"
  },
  {
   "property": "C21",
   "status": "proved",
   "theorems": [
    "C21_trim",
    "C21_idempotent"
   ],
   "note": "for every string; left, right and both"
  },
  {
   "property": "C22",
   "status": "proved",
   "theorems": [
    "C22_itos",
    "C22_stoin",
    "C22_int_min_refuted",
    "C22_leading_zero_refuted",
    "C22_letter_refuted"
   ],
   "note": "Proved for every int except the smallest and for numerals without superfluous zeros. Refuted: signed overflow on INT_MIN in both functions; a leading zero makes stoin return 0."
  },
  {
   "property": "C23",
   "status": "proved",
   "theorems": [
    "C23_is_number",
    "C23_atod",
    "C23_exponent_refuted"
   ],
   "note": "is_number characterised exactly; atod exact on plain decimals (as a rational, double rounding left out). Refuted: an accepted numeral with an exponent is read without it."
  },
  {
   "property": "C24",
   "status": "proved",
   "theorems": [
    "C24_expressions",
    "C24_elementwise",
    "C24_mismatch",
    "C24_empty_refuted",
    "C24_dot",
    "C24_normalize",
    "C24_linspace"
   ],
   "note": "Expression templates are evaluated by a model of their operator[] / size traversal; results equal the element-wise denotation for all shapes with agreeing sizes; dot/normalize laws proved. Refuted part: an operation on an empty operand dereferences out of range (c24_empty_refuted)."
  },
  {
   "property": "C25",
   "status": "proved",
   "theorems": [
    "C25_assign",
    "C25_assign_refuted"
   ],
   "note": "Point::operator= copies the values but not the size: assigning a shorter point leaves a stale tail (refuted); proved for equal-or-larger source."
  },
  {
   "property": "C26",
   "status": "proved",
   "theorems": [
    "C26_max",
    "C26_max_refuted",
    "C26_min"
   ],
   "note": "max() starts from the smallest positive double, so it is wrong for points with no element above it (refuted); min() is proved. max() proved when some element is at least that constant."
  },
  {
   "property": "C27",
   "status": "proved",
   "theorems": [
    "C27_euclidean",
    "C27_manhattan",
    "C27_chebyshev",
    "C27_chebyshev_refuted"
   ],
   "note": "Euclidean and Manhattan proved to be metrics in every dimension (Minkowski). Chebyshev self-distance is the smallest positive double: refuted."
  },
  {
   "property": "C28",
   "status": "proved",
   "theorems": [
    "C28_hassanat_signs",
    "C28_hassanat_negative_refuted",
    "C28_hassanat_flat",
    "C28_dissimilarities",
    "C28_cosine",
    "C28_asymmetric_refuted",
    "C28_kl_refuted",
    "C28_kumar_refuted",
    "C28_lorentzian_refuted",
    "C28_bhattacharyya_refuted",
    "C28_chord_refuted",
    "C28_constant_refuted",
    "C28_jensenshannon_refuted",
    "C28_minsymmetric_refuted",
    "C28_averagel1_refuted"
   ],
   "note": "23 functors proved (defined, symmetric, non-negative, zero iff equal) plus Cosine on positive coordinates; Hassanat on coordinates of any sign; the 14 others are refuted by witnesses."
  },
  {
   "property": "C29",
   "status": "proved",
   "theorems": [
    "C29_compute",
    "C29_psd"
   ],
   "note": "Entry-by-entry table for every kernel type (custom functions assumed symmetric and side-effect free); semidefiniteness proved for inner product, polynomial with natural exponent and Gaussian with non-negative parameter (power-series limit). std::pow is an arbitrary function except where said."
  },
  {
   "property": "C30",
   "status": "proved",
   "theorems": [
    "C30_history",
    "C30_after_reset",
    "C30_stale_refuted"
   ],
   "note": "compute() returns early when a matrix exists, so a second dataset is ignored (refuted). Proved over all call histories: the matrix is that of the first dataset since the last setType/setParam/recompute, hence of the last dataset right after such a reset."
  },
  {
   "property": "C31",
   "status": "proved",
   "theorems": [
    "C31_H",
    "C31_resize_refuted",
    "C31_without",
    "C31_without_refuted"
   ],
   "note": "generateMatrixH is right for a fresh object or an unchanged size; growing the dataset writes out of bounds (refuted). generateMatrixHwithoutDim omits the labels in the upper triangle (refuted); exact contents proved."
  },
  {
   "property": "C32",
   "status": "proved",
   "theorems": [
    "C32_full",
    "C32_triangular",
    "C32_ids_refuted"
   ],
   "note": "Proved for identifiers 1..n in order, every order in which rows are handled (rows handled one at a time; interleaving inside rows is left out), full and triangular layouts. With identifiers in another order the constructor fails an assertion (refuted)."
  },
  {
   "property": "C33",
   "status": "proved",
   "theorems": [
    "C33_blocks",
    "C33_waits"
   ],
   "note": "Block partition proved for all ranges and block counts; the return condition proved for every interleaving of the small-step machine."
  },
  {
   "property": "C34",
   "status": "proved",
   "theorems": [
    "C34_conservation",
    "C34_fifo",
    "C34_history"
   ],
   "note": "Conservation, FIFO start order and once-only execution hold in every reachable state, any number of workers and clients."
  },
  {
   "property": "C35",
   "status": "proved",
   "theorems": [
    "C35_wait",
    "C35_counter",
    "C35_wait_paused",
    "C35_wait_paused_refuted",
    "C35_wait_paused_single_refuted",
    "C35_progress"
   ],
   "note": "Not-paused branch, counter exactness and progress proved; the paused branch holds when no worker is past the pause check and nobody pushes; it is refuted in general (two non-atomic reads)."
  },
  {
   "property": "C36",
   "status": "proved",
   "theorems": [
    "C36_pause",
    "C36_pause_refuted",
    "C36_destructor",
    "C36_destructor_paused_refuted",
    "C36_reset"
   ],
   "note": "No new start while paused unless a worker had already passed the check (refuted otherwise); destructor runs everything unless paused (refuted); reset keeps tasks and flags, single user thread."
  },
  {
   "property": "C37",
   "status": "proved",
   "theorems": [
    "C37_plurality",
    "C37_few_points_refuted"
   ],
   "note": "Proved for every partial-sort outcome the standard allows, any real-valued metric, k at most the number of training points. With more neighbours than points (outside the property) the evaluation is undefined."
  },
  {
   "property": "C38",
   "status": "proved",
   "theorems": [
    "C38_train_total",
    "C38_success_separates",
    "C38_timeout_refuted"
   ],
   "note": "Proved whenever the clock lets one pass start; also termination for every clock. When the time is over at the first test the answer is true untrained (C38_timeout_refuted, outside the statement's proviso)."
  },
  {
   "property": "C39",
   "status": "proved",
   "theorems": [
    "C39_mistake_bound",
    "C39_success"
   ],
   "note": "Novikoff bound for every order, rate, clock and limits, and success when the limits allow it."
  },
  {
   "property": "C40",
   "status": "proved",
   "theorems": [
    "C40_dual_equals_primal",
    "C40_dual_success",
    "C40_timeout_refuted"
   ],
   "note": "Fresh objects, first clock test true: same weights, bias, norm, counters and answer; success separates for every non-custom kernel. With an immediate timeout the answers differ (C40_timeout_refuted)."
  },
  {
   "property": "C41",
   "status": "proved",
   "theorems": [
    "C41_margin",
    "C41_norm",
    "C41_combination",
    "C41_l1_norm_refuted",
    "C41_timeout_refuted",
    "C41_dual",
    "C41_dual_fresh_refuted",
    "C41_dual_zero",
    "C41_dual_norm_refuted"
   ],
   "note": "Primal: proved for every norm formulation (margin, termination, no bad access), norm = norm of w except for the L1 formulation (refuted: norm lags and a true answer can miss the margin), L2 combination; timeout before the first pass answers true (refuted). Dual: function values and margin proved unless a non-finite number arises; a first training with gamma not 0 always divides by norm 0 (refuted); with gamma 0 and a psd kernel it is finite, the norm kept bounds the true one but differs from it (refuted)."
  },
  {
   "property": "C42",
   "status": "proved",
   "theorems": [
    "C42_train",
    "C42_evaluate",
    "C42_undefeated",
    "C42_total"
   ],
   "note": "votes equal wins of the specification, first maximum returned, undefeated class returned, n(n-1) votes in total, training sets described pair by pair"
  },
  {
   "property": "C43",
   "status": "proved",
   "theorems": [
    "C43_train",
    "C43_evaluate"
   ],
   "note": "training sets described class by class on a heap, nothing that existed is modified; the answer is the first largest value"
  },
  {
   "property": "C44",
   "status": "proved",
   "theorems": [
    "C44_steps",
    "C44_train"
   ],
   "note": "Proved for every state reached from the start by any sequence of pair steps and for the result of train(); labels +1/-1, C>0, EPS>0, symmetric kernel matrix. Doubles are reals."
  },
  {
   "property": "C45",
   "status": "proved",
   "theorems": [
    "C45_steps",
    "C45_train"
   ],
   "note": "The list is the heap model of int_dll; training never follows a freed node, ends with everything freed and reports the number of positive alphas."
  },
  {
   "property": "C46",
   "status": "proved",
   "theorems": [
    "C46_append",
    "C46_remove",
    "C46_free",
    "C46_history",
    "C46_null"
   ],
   "note": "append, remove and free for all heaps; refinement of the abstract sequence for all operation histories, with forward and backward walks."
  },
  {
   "property": "C47",
   "status": "proved",
   "theorems": [
    "C47_mean",
    "C47_between",
    "C47_few_refuted"
   ],
   "note": "Proved for 1 <= k <= number of samples and any real-valued metric; more neighbours than samples are read out of bounds (outside the property)."
  },
  {
   "property": "C48",
   "status": "proved",
   "theorems": [
    "C48_mean_square",
    "C48_measure",
    "C48_lengths"
   ],
   "note": "Proved over the reals for vectors of equal non-zero length; other lengths fail the assertion."
  },
  {
   "property": "C49",
   "status": "proved",
   "theorems": [
    "C49_training",
    "C49_bias_refuted",
    "C49_residual",
    "C49_value"
   ],
   "note": "Pass count, update rule, stopping rule and evaluation proved. Refuted part: the bias is moved by the whole error, not by the learning rate."
  },
  {
   "property": "C50",
   "status": "proved",
   "theorems": [
    "C50_evaluate",
    "C50_clusters",
    "C50_twice_refuted"
   ],
   "note": "evaluate proved for every metric and every non-empty list of centres; clusters() proved for the first call on empty clusters. Refuted part: every further call adds all points again."
  },
  {
   "property": "C51",
   "status": "proved",
   "theorems": [
    "C51_update",
    "C51_mean_refuted",
    "C51_empty_refuted",
    "C51_train_refuted",
    "C51_train"
   ],
   "note": "The exact update law is proved; the new centre is the mean exactly when the old centre was 0 (the accumulator is not cleared). A cluster without points gives a centre that is not a number."
  },
  {
   "property": "C52",
   "status": "proved",
   "theorems": [
    "C52_weighted",
    "C52_hard",
    "C52_committee",
    "C52_majority",
    "C52_unknown_refuted"
   ],
   "note": "First class of largest total weight, for weighted, hard, committee and bagging votes; strict majority wins. A prediction outside the class list fails an assertion (c52_unknown_refuted)."
  },
  {
   "property": "C53",
   "status": "proved",
   "theorems": [
    "C53_distribution",
    "C53_one_class_refuted",
    "C53_one_point_refuted",
    "C53_evaluate"
   ],
   "note": "Invariant by induction over rounds for n >= 2 points and K >= 2 classes; K = 1 and a single wrong point take log 0 (refuted)."
  },
  {
   "property": "C54",
   "status": "proved",
   "theorems": [
    "C54_nonneg",
    "C54_simplex",
    "C54_sum_refuted",
    "C54_short_refuted"
   ],
   "note": "Non-negativity always; sum one under the stated guard, which is where the scan finds no threshold; (0,1,1) refutes the general claim; fewer than two weights abort."
  },
  {
   "property": "C55",
   "status": "proved",
   "theorems": [
    "C55_stratified",
    "C55_unstratified",
    "C55_two_folds_refuted",
    "C55_one_fold_refuted",
    "C55_repeated"
   ],
   "note": "Three or more folds: every pair partitions the data (up to the n mod k points the unstratified split drops). Refuted: two folds test on the training points; one fold is undefined behaviour."
  },
  {
   "property": "C56",
   "status": "proved",
   "theorems": [
    "C56_stratified",
    "C56_unstratified",
    "C56_unstratified_refuted"
   ],
   "note": "Stratified: train and test partition the data. Unstratified drops n mod k points (refuted)."
  },
  {
   "property": "C57",
   "status": "proved",
   "theorems": [
    "C57_counts",
    "C57_orientation_refuted",
    "C57_unlisted_refuted"
   ],
   "note": "Counts are exact for predictions listed among the classes. Refuted: rows are predictions, not true labels as documented; an unlisted prediction is counted as the first class."
  },
  {
   "property": "C58",
   "status": "proved",
   "theorems": [
    "C58_accuracy",
    "C58_agreement",
    "C58_metrics",
    "C58_metrics_refuted"
   ],
   "note": "accuracy() is the hit fraction and equals the matrix accuracy /100 and metricsReport's accuracy with no positive labels. Refuted when positive labels are given: true negatives are left out."
  },
  {
   "property": "C59",
   "status": "proved",
   "theorems": [
    "C59_counts",
    "C59_multiclass_refuted",
    "C59_ratios_refuted"
   ],
   "note": "Counters and accuracy are right whenever a report is returned for two labels. Refuted: undefined behaviour for any number of labels other than two; the ratios are truncated to 0 or 1."
  },
  {
   "property": "C60",
   "status": "proved",
   "theorems": [
    "C60_primal",
    "C60_dual_refuted"
   ],
   "note": "Primal classifiers, k >= 3, at least k points: mean fold error, disjoint training part, bounds. Refuted for dual classifiers: the test fold is part of the training samples. Two folds: see C55."
  },
  {
   "property": "C61",
   "status": "proved",
   "theorems": [
    "C61_reproducible",
    "C61_device",
    "C61_in_force_refuted",
    "C61_first_refuted",
    "C61_again_refuted"
   ],
   "note": "Same values after init(seed), whatever happened before, for a seed other than 0 and other than the one in force; init(0) reports a device seed with which the run can be repeated. With the seed in force init does nothing, so two programs starting with init(1) differ, and a second init(7) does not restart the sequence."
  },
  {
   "property": "C62",
   "status": "proved",
   "theorems": [
    "C62_run",
    "C62_any",
    "C62_ratio_refuted",
    "C62_names_refuted"
   ],
   "note": "The object keeps its features shuffled between calls; the theorem is over any sequence of calls. A ratio above 1 is undefined behaviour (c62_ratio_refuted), and the values are positions from 0, not feature names (c62_names_refuted)."
  },
  {
   "property": "C63",
   "status": "proved",
   "theorems": [
    "C63_smote",
    "C63_front",
    "C63_segment_refuted",
    "C63_neighbour_refuted"
   ],
   "note": "The dataset keeps its points in place and gains only points labelled with the first least frequent class; per minority point there is one artificial point for each of its min(k, number of different non-zero distances) nearest minority points. Two parts of the claim are false of the code: the other end is read from the whole dataset at the position the neighbour has among the minority points (c63_neighbour_refuted), and the point lies beyond the first end instead of between the two (c63_segment_refuted)."
  },
  {
   "property": "C64",
   "status": "proved",
   "theorems": [
    "C64_spirals",
    "C64_blobs",
    "C64_unlabelled",
    "C64_blobs_n",
    "C64_number_refuted"
   ],
   "note": "False as stated: the exact numbers are proved instead. make_spirals gives n_classes*floor(n/n_classes) points, make_blobs with sizes gives every center the sum of all sizes, and make_blobs(n, k) gives k*k*floor(n/k) points. Labels, class counts, ids and index are as promised."
  },
  {
   "property": "C65",
   "status": "proved",
   "theorems": [
    "C65_vector",
    "C65_empty",
    "C65_covar",
    "C65_diagonal_refuted",
    "C65_single_refuted",
    "C65_mean_data",
    "C65_std_data",
    "C65_std_single",
    "C65_std_refuted",
    "C65_var_data",
    "C65_var_data_refuted",
    "C65_radius",
    "C65_radius_one",
    "C65_radius_one_refuted",
    "C65_radius_other_refuted"
   ],
   "note": "Vectors: mean, variance and standard deviation are the textbook ones (population divisor), variance is non-negative and zero exactly on constant vectors. Covariance uses the sample divisor, so covariance(x,x) equals the variance exactly for constant x (refuted otherwise), and a vector of one number gives 0/0. Datasets: mean is the textbook one, std_dev uses the sample divisor (differs from the vector version unless it is 0), var(data,feat) is the sum of the variances of all the other features (refuted). The radius is the largest distance to the centroid for q=2, the largest absolute coordinate for q=1 (does not bound the distance to the centroid), and 1 for any other q."
  },
  {
   "property": "C66",
   "status": "proved",
   "theorems": [
    "C66_select",
    "C66_too_many",
    "C66_number",
    "C66_zero_refuted"
   ],
   "note": "Over the reals. Trainings and std::sort are oracles, any results; training is assumed to leave the dataset unchanged. c66_select covers every pattern of failures. The refuted lemma is the case of no feature requested."
  },
  {
   "property": "C67",
   "status": "proved",
   "theorems": [
    "C67_rfe",
    "C67_invalid",
    "C67_failure_refuted",
    "C67_jump_refuted",
    "C67_again_refuted"
   ],
   "note": "Over the reals. Trainings and std::sort are oracles, any results; training is assumed to leave the dataset unchanged. The refuted lemmas are the claims about failing trainings, jump 0 and second calls."
  },
  {
   "property": "C68",
   "status": "proved",
   "theorems": [
    "C68_primal",
    "C68_dual",
    "C68_agree"
   ],
   "note": "Both evaluations characterised for all inputs, and agreement."
  },
  {
   "property": "C69",
   "status": "proved",
   "theorems": [
    "C69_index_inserts",
    "C69_index_refuted"
   ],
   "note": "Index of an insertion-built dataset is the identity; after a removal it is not a permutation (refuted)."
  },
  {
   "property": "C70",
   "status": "proved",
   "theorems": [
    "C70_binary_refuted"
   ],
   "note": "tp and tn are right; fp and fn are exchanged, and so sensitivity and precision, for every dataset and model (refuted)."
  },
  {
   "property": "C71",
   "status": "proved",
   "theorems": [
    "C71_featureSpaceNorm",
    "C71_norm_refuted"
   ],
   "note": "featureSpaceNorm proved for all datasets; norm() does not reset its inner accumulator (refuted)."
  },
  {
   "property": "C72",
   "status": "proved",
   "theorems": [
    "C72_norm",
    "C72_primal_norm_refuted",
    "C72_dual_retrain_refuted"
   ],
   "note": "Refuted: a second training of the dual perceptron adds the weights to the old ones; a second training of the primal one that makes no update reports norm 0 for non-zero weights. The norm is right for fresh objects or after an update (C72_norm)."
  },
  {
   "property": "C73",
   "status": "proved",
   "theorems": [
    "C73_cache"
   ],
   "note": "Error cache exact for every non-bound example after any sequence of steps."
  },
  {
   "property": "C74",
   "status": "proved",
   "theorems": [
    "C74_step",
    "C74_train"
   ],
   "note": "Each step keeps or increases the dual objective when no squared feature-space distance is negative; true for every positive semidefinite kernel."
  },
  {
   "property": "C75",
   "status": "proved",
   "theorems": [
    "C75_true",
    "C75_duplicates_refuted"
   ],
   "note": "Holds when different examples have different images (c75_true). Refuted for examples that coincide in feature space: SMO.hpp:315 computes fmax with the lower bound, so such pairs are never moved and train() answers true with all alphas 0."
  },
  {
   "property": "C76",
   "status": "proved",
   "theorems": [
    "C76_csv_safe",
    "C76_csv_end",
    "C76_csv_end_refuted",
    "C76_csv_classes",
    "C76_csv_classes_refuted"
   ],
   "note": "Label first: proved for every text, class bookkeeping for lines not starting with a delimiter (refuted otherwise); label last: proved when no line is empty or ends with a delimiter, refuted otherwise."
  },
  {
   "property": "C77",
   "status": "proved",
   "theorems": [
    "C77_data_safe_refuted",
    "C77_data_blank_refuted",
    "C77_data_shape"
   ],
   "note": "The model is load_data on a list of characters; the positive theorem is for every file of the stated shape, the two refutations are one-line files outside it."
  },
  {
   "property": "C78",
   "status": "proved",
   "theorems": [
    "C78_data_round_trip"
   ],
   "note": "Proved under the guards of C17; features names up to INT_MAX."
  },
  {
   "property": "C79",
   "status": "proved",
   "theorems": [
    "C79_always_one",
    "C79_probability_refuted"
   ],
   "note": "Refuted: the condition is inverted, so that with two or more classes and k at most 999 per further class the reported probability is always 1."
  },
  {
   "property": "C80",
   "status": "proved",
   "theorems": [
    "C80_matrix",
    "C80_triangular",
    "C80_triangular_refuted",
    "C80_precompute_refuted"
   ],
   "note": "Full matrix: proved. Triangular matrix: proved when the query is not a training point, refuted when it is. precomputeDistances: refuted, the matrix is not stored and later evaluations read an empty one."
  },
  {
   "property": "C81",
   "status": "proved",
   "theorems": [
    "C81_start",
    "C81_start_refuted"
   ],
   "note": "Proved when all draws are below the number of points; refuted because the generator includes its upper bound, the number of points."
  },
  {
   "property": "C82",
   "status": "proved",
   "theorems": [
    "C82_alpha_refuted",
    "C82_direction",
    "C82_all_right"
   ],
   "note": "The SAMME vote is refuted for every n, K >= 2 (squared weights); the direction of the update and the all-right case are proved."
  },
  {
   "property": "C83",
   "status": "proved",
   "theorems": [
    "C83_weights_refuted",
    "C83_weights",
    "C83_type",
    "C83_history"
   ],
   "note": "Refuted: a hard evaluation overwrites the weights with ones; the positive theorem covers histories without one."
  },
  {
   "property": "C84",
   "status": "proved",
   "theorems": [
    "C84_keep_index",
    "C84_renumbered_refuted"
   ],
   "note": "keep_index is proved; without the flag the source's point is renumbered (refuted), for every such insertion"
  },
  {
   "property": "C85",
   "status": "proved",
   "theorems": [
    "C85_ova_refuted",
    "C85_ovo_refuted",
    "C85_counts_refuted"
   ],
   "note": "The heap model gives the counts of every training set; binary_set (C42, C43) gives the labels. The witness is a dataset with counts 2 and 1."
  },
  {
   "property": "C86",
   "status": "proved",
   "theorems": [
    "C86_well_formed",
    "C86_removed_refuted",
    "C86_empty_refuted"
   ],
   "note": "proved under the stated guard; both guards are necessary (refuted: after removing features a name occurs twice; an empty dataset gets a feature named 0)"
  },
  {
   "property": "C87",
   "status": "proved",
   "theorems": [
    "C87_duplicate_refuted",
    "C87_ids"
   ],
   "note": "The ids are those read through the pointers after the last draw; the witness draws point 0 twice."
  },
  {
   "property": "C88",
   "status": "proved",
   "theorems": [
    "C88_distance",
    "C88_one_class_refuted",
    "C88_without_refuted"
   ],
   "note": "distCenters is as stated when both kinds of labels occur, and not a number when all labels are 1. distCentersWithoutFeats measures exactly the features it is told to leave out (refuted)."
  },
  {
   "property": "C89",
   "status": "proved",
   "theorems": [
    "C89_regression"
   ],
   "note": "Real targets; the noise is any stream of numbers."
  },
  {
   "property": "C90",
   "status": "proved",
   "theorems": [
    "C90_weight",
    "C90_squares",
    "C90_dual",
    "C90_dual_one_class",
    "C90_dual_refuted"
   ],
   "note": "getWeight, getDualWeight, getDualWeightProdInt; the two-class case of getDualWeight is recorded as a refutation"
  },
  {
   "property": "C91",
   "status": "proved",
   "theorems": [
    "C91_solution",
    "C91_linear",
    "C91_margin",
    "C91_degree_one",
    "C91_custom_refuted",
    "C91_degree_one_refuted"
   ],
   "note": "SMO::train end to end with the solution fields; degree-one polynomial weights and custom kernels are recorded as refutations"
  },
  {
   "property": "C92",
   "status": "proved",
   "theorems": [
    "C92_total",
    "C92_separates",
    "C92_margin",
    "C92_initial_refuted"
   ],
   "note": "Reals; clock, time limit and DBL_MAX are parameters. The initial-solution path is refuted (c92_initial_refuted)."
  },
  {
   "property": "C93",
   "status": "proved",
   "theorems": [
    "C93_increasing",
    "C93_bound"
   ],
   "note": "The reported margins are what verbose output prints in each round."
  },
  {
   "property": "C94",
   "status": "proved",
   "theorems": [
    "C94_evaluate",
    "C94_training_points",
    "C94_one_class_refuted",
    "C94_positive_refuted"
   ],
   "note": "The natural claim that separated training points are classified correctly is refuted (c94_positive_refuted, c94_one_class_refuted); the exact rule is proved."
  },
  {
   "property": "C95",
   "status": "proved",
   "theorems": [
    "C95_total",
    "C95_classifies",
    "C95_balanced",
    "C95_through_origin",
    "C95_converges",
    "C95_no_bias_refuted",
    "C95_zero_epochs_refuted"
   ],
   "note": "c95_total, c95_classifies, c95_balanced, c95_through_origin and c95_converges are the positive parts. c95_no_bias_refuted: two points separable with a bias on which training never succeeds. c95_zero_epochs_refuted: maximum of 0 epochs."
  },
  {
   "property": "C96",
   "status": "proved",
   "theorems": [
    "C96_total",
    "C96_weights",
    "C96_failed",
    "C96_classifies",
    "C96_some_bias",
    "C96_bias_refuted",
    "C96_retrain_refuted",
    "C96_margin_refuted",
    "C96_svs",
    "C96_svs_refuted"
   ],
   "note": "c96_classifies under its exact guard (ended by stagnation, alphas start 0, none cut); outside it c96_bias_refuted, c96_retrain_refuted; c96_margin_refuted for the stored margin"
  },
  {
   "property": "C97",
   "status": "proved",
   "theorems": [
    "C97_report",
    "C97_counts_refuted",
    "C97_perfect_refuted",
    "C97_no_negative_refuted",
    "C97_other_classes"
   ],
   "note": "exact content of the report (c97_report), its consequences c97_counts_refuted, c97_perfect_refuted, c97_no_negative_refuted, c97_other_classes; dual classifiers: see C60"
  },
  {
   "property": "C98",
   "status": "proved",
   "theorems": [
    "C98_mean",
    "C98_no_execution_refuted",
    "C98_one_fold_refuted",
    "C98_zero_folds_refuted"
   ],
   "note": "c98_mean; outside its guard c98_no_execution_refuted and c98_one_fold_refuted"
  },
  {
   "property": "C99",
   "status": "proved",
   "theorems": [
    "C99_equal",
    "C99_equivalence",
    "C99_differs",
    "C99_copy",
    "C99_copy_refuted",
    "C99_assign",
    "C99_clear_refuted",
    "C99_labels_refuted",
    "C99_assign_flag_refuted"
   ],
   "note": "Exact condition for equality and equivalence laws; the fields that are ignored, copies with other class names, the counting flag and cleared datasets are shown by the _refuted theorems."
  },
  {
   "property": "C100",
   "status": "proved",
   "theorems": [
    "C100_name",
    "C100_dots",
    "C100_slashes_refuted",
    "C100_distinct_refuted"
   ],
   "note": "Exact value for all paths; the empty path and coinciding names are shown by the _refuted theorems."
  },
  {
   "property": "C101",
   "status": "proved",
   "theorems": [
    "C101_feature",
    "C101_range",
    "C101_by_name_refuted",
    "C101_labels",
    "C101_apply",
    "C101_apply_refuted"
   ],
   "note": "Exact values and the assertion outside the range; names as positions and label changes are shown by the _refuted theorems."
  },
  {
   "property": "C102",
   "status": "proved",
   "theorems": [
    "C102_table",
    "C102_safe",
    "C102_comma_refuted",
    "C102_header_refuted",
    "C102_begin_refuted",
    "C102_reload_refuted"
   ],
   "note": "Exact result for tables and safety for arbitrary text; headers, trailing commas, class not last and reloading are shown by the _refuted theorems."
  },
  {
   "property": "C103",
   "status": "proved",
   "theorems": [
    "C103_safe",
    "C103_table",
    "C103_ragged",
    "C103_classes_refuted"
   ],
   "note": "Exact result for tables, totality and refusal for ragged files; the missing class is shown by a _refuted theorem."
  },
  {
   "property": "C104",
   "status": "proved",
   "theorems": [
    "C104_csv",
    "C104_data",
    "C104_txt_refuted",
    "C104_again",
    "C104_again_refuted",
    "C104_counting_refuted",
    "C104_plt",
    "C104_plt_refuted",
    "C104_refused"
   ],
   "note": "Round trips through write and load; empty txt files, accumulating counts and the counting flag are shown by the _refuted theorems."
  },
  {
   "property": "C105",
   "status": "proved",
   "theorems": [
    "C105_borderline",
    "C105_front_refuted",
    "C105_short_refuted",
    "C105_many_refuted"
   ],
   "note": "The documented intent (append artificial minority points near the border) holds only as far as stated; C105_front_refuted, C105_short_refuted and C105_many_refuted give the general failures."
  },
  {
   "property": "C106",
   "status": "proved",
   "theorems": [
    "C106_new",
    "C106_again",
    "C106_labels_refuted",
    "C106_scale_refuted"
   ],
   "note": "The refuted theorems show the need of the guards (C106_scale_refuted for the bound on alpha, C106_labels_refuted for varying labels)."
  },
  {
   "property": "C107",
   "status": "proved",
   "theorems": [
    "C107_best",
    "C107_improves_refuted",
    "C107_evaluate",
    "C107_one_member_refuted",
    "C107_seed_refuted",
    "C107_candidate"
   ],
   "note": "The natural claim (training improves the weights) is refuted in general by C107_improves_refuted; what the weights are is C107_best. NaN weights are modelled. Two runs with one seed can differ (C107_seed_refuted) and one member hangs (C107_one_member_refuted)."
  },
  {
   "property": "C108",
   "status": "proved",
   "theorems": [
    "C108_train",
    "C108_reach_refuted",
    "C108_seeds_refuted",
    "C108_sizes_refuted",
    "C108_evaluate"
   ],
   "note": "training, own samples and voting for 1 <= k <= n; general refutations: reach of the samples, overlap of consecutive seeds, k = 0 or k > n"
  },
  {
   "property": "C109",
   "status": "proved",
   "theorems": [
    "C109_train",
    "C109_separable",
    "C109_majority",
    "C109_unlisted_refuted",
    "C109_empty_refuted"
   ],
   "note": "training total; training labels on data separable through the origin; majority; refutations: unlisted answers, no members"
  },
  {
   "property": "C110",
   "status": "proved",
   "theorems": [
    "C110_queue",
    "C110_sorted",
    "C110_full_refuted",
    "C110_projected",
    "C110_free",
    "C110_free_refuted",
    "C110_largest"
   ],
   "note": "The statement carries the guard (nodes alive, values unchanged); the refuted theorem shows that a full queue does not give up its least valuable node."
  },
  {
   "property": "C111",
   "status": "proved",
   "theorems": [
    "C111_table",
    "C111_full_refuted",
    "C111_equal",
    "C111_weight_refuted"
   ],
   "note": "The refuted theorems are general: any list of more colliding feature lists than places aborts; the comparison of weights is false for every weight."
  },
  {
   "property": "C112",
   "status": "proved",
   "theorems": [
    "C112_cut",
    "C112_order_refuted"
   ],
   "note": "The refuted theorem is a run of insertions followed by a cut after which the extraction is not the best."
  },
  {
   "property": "C113",
   "status": "proved",
   "theorems": [
    "C113_merge_refuted",
    "C113_dangling_refuted",
    "C113_apart"
   ],
   "note": "Both refuted theorems are general over nodes, sizes and cuts; the positive theorem gives the exact condition under which values are kept."
  },
  {
   "property": "C114",
   "status": "proved",
   "theorems": [
    "C114_sound",
    "C114_ends",
    "C114_reach",
    "C114_breadth_refuted",
    "C114_zero_refuted",
    "C114_keep"
   ],
   "note": "Soundness, termination and the exact size of the result under the stated guard; beyond it the search reads past the weights (breadth too large) or returns an empty dataset (breadth 0). The guard on the table holds for feature names 1 to 3 with the sizes of the code (example). Outside it C113 shows reads of freed memory."
  },
  {
   "property": "C115",
   "status": "proved",
   "theorems": [
    "C115_forever_refuted"
   ],
   "note": "General refutation of termination for one feature to take away; an example with the default settings and the margin 0 of the perceptrons."
  },
  {
   "property": "C116",
   "status": "proved",
   "theorems": [
    "C116_heaviest",
    "C116_value",
    "C116_order_refuted"
   ],
   "note": "Exact refinement for one child; the closed form of the value and the reversal of the order are proved for all weights."
  },
  {
   "property": "C117",
   "status": "proved",
   "theorems": [
    "C117_now",
    "C117_assign",
    "C117_number",
    "C117_own",
    "C117_own_refuted",
    "C117_gather_refuted",
    "C117_kept",
    "C117_kept_refuted",
    "C117_by_value",
    "C117_sizes",
    "C117_sizes_assign",
    "C117_copied"
   ],
   "note": "Exact results for aliasing with a coordinate of the point itself; use of a kept expression is defined exactly for one operation on named points (both directions proved)."
  },
  {
   "property": "C118",
   "status": "proved",
   "theorems": [
    "C118_values",
    "C118_copy_refuted",
    "C118_freed",
    "C118_leak_refuted",
    "C118_stale_refuted",
    "C118_larger_refuted",
    "C118_wrong_refuted",
    "C118_ovo_smo",
    "C118_ovo_plain",
    "C118_trained_refuted",
    "C118_blank_refuted",
    "C118_settype_refuted",
    "C118_plain_type_refuted"
   ],
   "note": "setKernel, by which the user hands over a pointer of their own, is left out. Training is an oracle that depends on the kernel matrix it reads; its reads outside the matrix are UB."
  },
  {
   "property": "C119",
   "status": "proved",
   "theorems": [
    "C119_fresh",
    "C119_own",
    "C119_others_refuted",
    "C119_types_refuted",
    "C119_keep_refuted"
   ],
   "note": "Folder operations succeed in the model; a rename fails when its target exists."
  },
  {
   "property": "C120",
   "status": "proved",
   "theorems": [
    "C120_files",
    "C120_slash_refuted",
    "C120_same_name_refuted",
    "C120_unknown_refuted",
    "C120_regression",
    "C120_regression_name_refuted"
   ],
   "note": "c120_files for classification data, c120_regression for the rest; the refuted theorems cover names with a slash, equal names, unknown labels and the returned file name"
  },
  {
   "property": "C121",
   "status": "proved",
   "theorems": [
    "C121_titles",
    "C121_dot_refuted",
    "C121_none_refuted",
    "C121_regression_refuted",
    "C121_decision",
    "C121_underscore_refuted",
    "C121_decision_slash_refuted"
   ],
   "note": "c121_titles and c121_decision under the exact conditions on names; refuted theorems are general and say what happens outside them"
  },
  {
   "property": "C122",
   "status": "proved",
   "theorems": [
    "C122_near",
    "C122_whole",
    "C122_cut_refuted",
    "C122_small_refuted",
    "C122_points"
   ],
   "note": "c122_near and c122_whole; what is cut off is c122_cut_refuted and c122_small_refuted, both general"
  },
  {
   "property": "C123",
   "status": "proved",
   "theorems": [
    "C123_surface",
    "C123_swapped_refuted",
    "C123_missing_refuted"
   ],
   "note": "c123_surface for x before y; the other order, equal features and removed features are general refutations"
  },
  {
   "property": "C124",
   "status": "proved",
   "theorems": [
    "C124_line",
    "C124_vertical_refuted",
    "C124_same_refuted",
    "C124_plane",
    "C124_norm_refuted",
    "C124_fit",
    "C124_fit_one",
    "C124_points",
    "C124_points_refuted"
   ],
   "note": "Iff statements over all points of the plane or space; the refuted cases (zero weight, same feature, NaN norm in 3D, column 2) are general, not single witnesses."
  },
  {
   "property": "C125",
   "status": "proved",
   "theorems": [
    "C125_alone",
    "C125_left_refuted",
    "C125_title_refuted",
    "C125_shared",
    "C125_shared_full",
    "C125_stays_refuted",
    "C125_script",
    "C125_script_refuted",
    "C125_lines"
   ],
   "note": "Refinement to a specification of settings by key; leaks and the missing effect of setTitle are proved in general."
  },
  {
   "property": "C126",
   "status": "proved",
   "theorems": [
    "C126_plain",
    "C126_exp",
    "C126_power_refuted",
    "C126_special",
    "C126_inf_refuted",
    "C126_read",
    "C126_read_refuted"
   ],
   "note": "Exact arithmetic over the rationals (the rounding of log10, pow and the subtractions in doubles is not modelled); the buffer is."
  },
  {
   "property": "C127",
   "status": "proved",
   "theorems": [
    "C127_root",
    "C127_off",
    "C127_margin_refuted",
    "C127_trained_refuted",
    "C127_start_refuted"
   ],
   "note": "The natural claims (trained on the features left, started from the weights of the parent, g_margin respected) are false; each has a general theorem."
  },
  {
   "property": "C128",
   "status": "proved",
   "theorems": [
    "C128_find",
    "C128_picture",
    "C128_settings",
    "C128_together",
    "C128_multiplot_refuted",
    "C128_label_refuted",
    "C128_replot_refuted",
    "C128_splot_refuted"
   ],
   "note": "The session is proved, by a simulation over arbitrary call sequences, to show what the caller asked for whenever the texts name no plot command; the four refutations give, for all inputs of each shape, what happens when they do. The pipe is the list of commands sent; texts with ends of line, which would be several commands, are read as one."
  },
  {
   "property": "C129",
   "status": "proved",
   "theorems": [
    "C129_contents",
    "C129_reject",
    "C129_pixels",
    "C129_limit",
    "C129_closed_refuted",
    "C129_remove",
    "C129_twice_refuted"
   ],
   "note": "Contents and rejection are proved for every state, the limit, the removal and the double removal for every history without earlier removals; that closing frees nothing is refuted with 63 sessions. Numbers are the texts the stream writes; failures of mkstemp are not modelled."
  },
  {
   "property": "C130",
   "status": "proved",
   "theorems": [
    "C130_entries",
    "C130_delims",
    "C130_search",
    "C130_unset",
    "C130_set",
    "C130_set_refuted"
   ],
   "note": "Proved for every PATH made of entries and colons; the loss of the configured directory is the refutation. The Windows and Mac branches are not modelled."
  },
  {
   "property": "C131",
   "status": "proved",
   "theorems": [
    "C131_train",
    "C131_evaluate",
    "C131_answers",
    "C131_norm",
    "C131_norm_refuted",
    "C131_flag_refuted"
   ],
   "note": "The unset flag (undefined behaviour) and the zero initial norm are the two refuted theorems; everything else is for all datasets, norms and clocks."
  },
  {
   "property": "C132",
   "status": "proved",
   "theorems": [
    "C132_text",
    "C132_empty_refuted",
    "C132_injective",
    "C132_hidden_refuted",
    "C132_data",
    "C132_data_refuted",
    "C132_select",
    "C132_select_stops",
    "C132_order_refuted",
    "C132_equal",
    "C132_label_refuted",
    "C132_erase"
   ],
   "note": "Empty points, hidden labels, order of selected features and equality despite other labels are refuted in general."
  },
  {
   "property": "C133",
   "status": "proved",
   "theorems": [
    "C133_values",
    "C133_same_size",
    "C133_new",
    "C133_reproducible",
    "C133_between",
    "C133_again_refuted"
   ],
   "note": "The draw of the distribution is a parameter; repeated seeds continue the sequence, proved in general."
  },
  {
   "property": "C134",
   "status": "proved",
   "theorems": [
    "C134_history",
    "C134_of_matrix",
    "C134_kept",
    "C134_lost_refuted",
    "C134_row",
    "C134_pair",
    "C134_custom"
   ],
   "note": "Exact history theorem; the lost matrix is the refuted theorem."
  },
  {
   "property": "C135",
   "status": "proved",
   "theorems": [
    "C135_value",
    "C135_least",
    "C135_split",
    "C135_order",
    "C135_members",
    "C135_empty",
    "C135_zero",
    "C135_outside_refuted"
   ],
   "note": "Exact value, minimality over all centres, invariances, zero case; positions outside are the refuted theorem."
  },
  {
   "property": "C136",
   "status": "proved",
   "theorems": [
    "C136_error",
    "C136_sign",
    "C136_whole",
    "C136_nan_refuted",
    "C136_order_refuted"
   ],
   "note": "the exact guards are in the statement; c136_order_refuted and c136_nan_refuted show what happens outside them"
  },
  {
   "property": "C137",
   "status": "proved",
   "theorems": [
    "C137_true",
    "C137_infinite_refuted"
   ],
   "note": "c137_infinite_refuted shows that the exception in the statement is real"
  },
  {
   "property": "C138",
   "status": "proved",
   "theorems": [
    "C138_exact",
    "C138_converges"
   ],
   "note": "stated with the exact guard; the norm is not part of the agreement"
  },
  {
   "property": "C139",
   "status": "proved",
   "theorems": [
    "C139_gradient",
    "C139_largest"
   ],
   "note": "all formulations; the q-norm case assumes only that the power function is Rpower on positive bases and 0 at base 0"
  },
  {
   "property": "C140",
   "status": "proved",
   "theorems": [
    "C140_rates",
    "C140_support"
   ],
   "note": "support vectors and the rates that select them"
  },
  {
   "property": "C141",
   "status": "proved",
   "theorems": [
    "C141_shorter_refuted",
    "C141_longer_refuted"
   ],
   "note": "the positive case is c38_train_total and c38_success_separates; the two refuted theorems are general"
  },
  {
   "property": "C142",
   "status": "proved",
   "theorems": [
    "C142_safe",
    "C142_one_refuted"
   ],
   "note": "that the search may go on drawing for ever is C107"
  },
  {
   "property": "C143",
   "status": "proved",
   "theorems": [
    "C143_symmetric",
    "C143_nonneg",
    "C143_zero",
    "C143_manhattan",
    "C143_euclidean",
    "C143_order",
    "C143_chebyshev_refuted",
    "C143_underflow_refuted",
    "C143_overflow_refuted",
    "C143_triangle_refuted"
   ],
   "note": "symmetric, not negative, relative error bounds and correct order under exact guards; the Chebyshev distance is never 0, tiny differences give Euclidean distance 0, finite points can be infinitely far apart and the triangle inequality can fail by rounding (refuted)."
  },
  {
   "property": "C144",
   "status": "proved",
   "theorems": [
    "C144_pp_refuted",
    "C144_again_refuted",
    "C144_same_refuted",
    "C144_past_refuted",
    "C144_none_refuted",
    "C144_twin_refuted",
    "C144_other_refuted",
    "C144_train_refuted",
    "C144_other"
   ],
   "note": "kmeanspp draws uniformly and can repeat a point; repeated or default centres end in a centre that is not a number (refuted); one cluster from the origin gives the mean (proved)."
  },
  {
   "property": "C145",
   "status": "proved",
   "theorems": [
    "C145_fscore",
    "C145_no_hit_refuted",
    "C145_error_refuted",
    "C145_class_refuted",
    "C145_print_refuted",
    "C145_lines_refuted"
   ],
   "note": "the F-score formula is proved; error counts true negatives, F-score is not a number without hits, classificationReport leaves error at 0, print shows one rate three times (refuted)."
  },
  {
   "property": "C146",
   "status": "proved",
   "theorems": [
    "C146_csv",
    "C146_arff_refuted",
    "C146_data_last",
    "C146_data_cut_refuted",
    "C146_type_refuted",
    "C146_agrees"
   ],
   "note": "proved for .csv (both places of the label) and for .data files with labels last and a point in the second label; agreement with the class reader when classes are found. Refuted: .arff labels are all 0; .data labels at the front, or a second label without a point, are cut to whole numbers; the type ends as classification"
  },
  {
   "property": "C147",
   "status": "proved",
   "theorems": [
    "C147_fisher",
    "C147_golub_refuted",
    "C147_scaled_refuted",
    "C147_shapes",
    "C147_order",
    "C147_nan_refuted",
    "C147_choice",
    "C147_choice_refuted",
    "C147_search",
    "C147_value"
   ],
   "note": "closed forms of what each sorting shape compares; the shape meant as Golub's score and choice 2 without distances are refuted in general"
  },
  {
   "property": "C148",
   "status": "proved",
   "theorems": [
    "C148_int",
    "C148_int_refuted",
    "C148_double",
    "C148_cut",
    "C148_cut_refuted"
   ],
   "note": "Proved with the sign of the coordinate; that the remainders lie in [0, m), that every modulus is defined and that an int point has an exact remainder by a double are refuted."
  },
  {
   "property": "C149",
   "status": "proved",
   "theorems": [
    "C149_norm",
    "C149_laws",
    "C149_order",
    "C149_max",
    "C149_max_refuted",
    "C149_negative_refuted",
    "C149_normalize",
    "C149_zero_refuted",
    "C149_int_refuted"
   ],
   "note": "Real arithmetic. That NORM_LINF of a zero point is 0, that a negative order gives a norm, and that normalize works on zero points and on int points are refuted."
  },
  {
   "property": "C150",
   "status": "proved",
   "theorems": [
    "C150_mean",
    "C150_mean_refuted",
    "C150_stop",
    "C150_var",
    "C150_var_refuted",
    "C150_covar"
   ],
   "note": "The conversion of a 64-bit quotient to double is taken as exact. That mean and variance of int points are the textbook ones, and that the variance is 0 for constant points only, are refuted."
  },
  {
   "property": "C151",
   "status": "proved",
   "theorems": [
    "C151_whole",
    "C151_cut",
    "C151_sub_refuted",
    "C151_div_refuted",
    "C151_zero_refuted"
   ],
   "note": "That p - s and p -= s, or p / s and p /= s, agree is refuted in general form; proved for whole numbers."
  },
  {
   "property": "C152",
   "status": "proved",
   "theorems": [
    "C152_calls",
    "C152_pure",
    "C152_prob_refuted",
    "C152_certain",
    "C152_prob_calls"
   ],
   "note": "C152_calls and C152_pure give the batch of answers; C152_prob_refuted shows that the batch of probabilities loses every probability below 1, C152_certain and C152_prob_calls what it still tells."
  }
 ]
}