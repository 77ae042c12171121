{"id": "C01", "title": "insertPoint appends or rejects", "statement": "Data::insertPoint(p), on any dataset whose counters are as long as its class list, returns false and leaves the dataset unchanged exactly when the dataset is non-empty and p has a different number of features; otherwise it returns true, the point becomes the last one, size() grows by one, every earlier point is unchanged, and the new point's id is size() (or its own id when keepIndex is set). The condition on the counters is needed: a dataset filled by classesCopy does not meet it, and inserting into it writes out of bounds.", "quantifier": "every dataset state reachable by any history and every point", "why_tests_cant": "the set of datasets, dimensions and prior histories is unbounded", "anchors": ["subprojects/ufjfmltk-core/include/ufjfmltk/core/Data.hpp:insertPoint"]}
{"id": "C02", "title": "Class bookkeeping matches the points", "statement": "After any sequence of insertPoint, removePoint, removePoints (leaving a point), shuffle, removeFeatures (without naming a feature twice), in-place relabelling to a known class, recounting and index resetting that starts from a consistent dataset, classes() lists each label present without repetition and classesDistribution()[i] is exactly the number of points whose label is classes()[i]. Outside these histories the bookkeeping breaks: inserting after clear() miscounts, relabelling to an unknown label accesses memory out of bounds, and after removePoints has removed every point the next insertion does.", "quantifier": "every finite history of dataset operations, any labels", "why_tests_cant": "bookkeeping drift shows only for particular operation orders; histories are unbounded", "anchors": ["subprojects/ufjfmltk-core/include/ufjfmltk/core/Data.hpp:insertPoint", "subprojects/ufjfmltk-core/include/ufjfmltk/core/Data.hpp:removePoint", "subprojects/ufjfmltk-core/include/ufjfmltk/core/Data.hpp:removePoints", "subprojects/ufjfmltk-core/include/ufjfmltk/core/Data.hpp:clear", "subprojects/ufjfmltk-core/include/ufjfmltk/core/Data.hpp:updatePointValue", "subprojects/ufjfmltk-core/include/ufjfmltk/core/Data.hpp:computeClassesDistribution"]}
{"id": "C03", "title": "removePoint removes exactly the addressed point", "statement": "removePoint(id), on a dataset of two or more points with positive ascending ids, deletes the point with that id and only it, keeps the order of the others, decrements size() and that label's count, and returns true; for an id above all ids, or not positive, it changes nothing and returns false; and whatever the order of the ids, true means that exactly the first point with that id is gone and false that nothing changed. Outside: an absent id between the ids makes the search run out of bounds, a present id can be refused after shuffle, and the index list can receive negative positions.", "quantifier": "every dataset and every id, in any history of insertions and removals", "why_tests_cant": "ids become sparse after removals, a state that depends on the whole history", "anchors": ["subprojects/ufjfmltk-core/include/ufjfmltk/core/Data.hpp:removePoint"]}
{"id": "C04", "title": "removePoints removes exactly the listed ids", "statement": "removePoints(ids) keeps, in order, exactly the points whose id is not listed, updates size and class counts accordingly, and reports for each id (in ascending order) whether it was missing, provided some point stays and the ids removed are positive; when no point stays, size() remains 1 and the next insertion accesses memory out of bounds.", "quantifier": "every dataset with distinct ids and every id list", "why_tests_cant": "combinations of present, absent and repeated ids are unbounded", "anchors": ["subprojects/ufjfmltk-core/include/ufjfmltk/core/Data.hpp:removePoints"]}
{"id": "C05", "title": "removeFeatures keeps exactly the unnamed features", "statement": "removeFeatures(feats), naming no existing feature twice, leaves in every point, in the original order, exactly the values of the features whose name is not in feats, removes the same names from the feature-name list and keeps dim() equal to the number of names; with nothing to remove or a single feature left it changes nothing. When a feature is named twice the points and the names disagree, and a later insertion resets the names.", "quantifier": "every dataset, every list of feature names including absent ones", "why_tests_cant": "a two-cursor merge is right or wrong depending on ordering and repetition of names", "anchors": ["subprojects/ufjfmltk-core/include/ufjfmltk/core/Data.hpp:removeFeatures"]}
{"id": "C06", "title": "insertFeatures projects onto the requested features", "statement": "insertFeatures(feats) returns a dataset with the same number of points, labels, ids and alphas, whose points hold exactly the values of the requested features in name order, with feature names equal to the sorted request; a request naming an absent feature yields an empty dataset.", "quantifier": "every dataset with ascending feature names and every request", "why_tests_cant": "unbounded dimensions and requests", "anchors": ["subprojects/ufjfmltk-core/include/ufjfmltk/core/Data.hpp:insertFeatures"]}
{"id": "C07", "title": "selectFeatures projects onto the requested features", "statement": "selectFeatures(feats), for distinct existing feature names, returns one point per original point holding the values of exactly the requested features in ascending order with label, id and alpha preserved, and correct class counts. A request for the name 0 shifts the selection, and the result's feature names are always renumbered from 1.", "quantifier": "every dataset and every list of feature names", "why_tests_cant": "unbounded dimensions and requests", "anchors": ["subprojects/ufjfmltk-core/include/ufjfmltk/core/Data.hpp:selectFeatures"]}
{"id": "C08", "title": "copy is a faithful and independent copy", "statement": "copy() yields a dataset whose observable contents (points, labels, ids, alphas, feature names, classes, distribution, index) equal the source's, and no later modification made through either dataset is visible through the other; plain assignment, in contrast, shares the points.", "quantifier": "every dataset and every later sequence of writes", "why_tests_cant": "aliasing only shows after particular sequences of writes", "anchors": ["subprojects/ufjfmltk-core/include/ufjfmltk/core/Data.hpp:copy", "subprojects/ufjfmltk-core/include/ufjfmltk/core/Data.hpp:operator="]}
{"id": "C09", "title": "join is concatenation", "statement": "a.join(b), for consistent datasets of equal dimension with a's counters not marked as loaded, leaves a with its own points followed by copies of b's points (same values, labels, ids), the class list a superset containing every class of both without repetition, the class distribution equal to the actual label counts, and b unchanged. Otherwise: after load the joined dataset has all counts 0, class names need not line up with classes, and joining into an empty dataset leaves dim() at 0.", "quantifier": "every pair of datasets of equal dimension", "why_tests_cant": "depends on unbounded contents and on hidden flags set by earlier operations", "anchors": ["subprojects/ufjfmltk-core/include/ufjfmltk/core/Data.hpp:join", "subprojects/ufjfmltk-core/include/ufjfmltk/core/Data.hpp:computeClassesDistribution"]}
{"id": "C10", "title": "Stratified split is a balanced partition", "statement": "splitSample(k) on a classification dataset returns k parts that together contain every point exactly once, and for every label the numbers of points with that label in any two parts differ by at most one; likewise the part sizes.", "quantifier": "every dataset, every k>=1, every outcome of the random shuffle", "why_tests_cant": "shuffle outcomes and label multisets are unbounded", "anchors": ["subprojects/ufjfmltk-core/include/ufjfmltk/core/Data.hpp:splitSample"]}
{"id": "C11", "title": "Unstratified split gives equal disjoint parts", "statement": "Without stratification splitSample(k) returns k parts of exactly floor(n/k) points each, pairwise disjoint, drawn from the dataset; exactly n mod k points are left out.", "quantifier": "every dataset, every k>=1, every shuffle outcome", "why_tests_cant": "unbounded sizes", "anchors": ["subprojects/ufjfmltk-core/include/ufjfmltk/core/Data.hpp:splitSample"]}
{"id": "C12", "title": "splitByClasses groups points by label", "statement": "splitByClasses() returns one part per class, in classes() order, holding exactly the points with that label in their original order.", "quantifier": "every dataset whose labels are all listed in classes()", "why_tests_cant": "unbounded data", "anchors": ["subprojects/ufjfmltk-core/include/ufjfmltk/core/Data.hpp:splitByClasses"]}
{"id": "C13", "title": "shuffle is a permutation", "statement": "shuffle(seed) only reorders the points: the multiset of (features, label, id) is unchanged, and the class list, distribution, size and feature names are untouched; the index is reset to the identity.", "quantifier": "every dataset and every generator outcome", "why_tests_cant": "the number of permutations is unbounded", "anchors": ["subprojects/ufjfmltk-core/include/ufjfmltk/core/Data.hpp:shuffle"]}
{"id": "C14", "title": "classesCopy is a filter", "statement": "classesCopy(src, cls) into an empty dataset yields copies, in order, of exactly the points of src whose label is in cls, with classes() = cls and src's feature names; the class counts of the result are not set.", "quantifier": "every source and class list", "why_tests_cant": "unbounded data", "anchors": ["subprojects/ufjfmltk-core/include/ufjfmltk/core/Data.hpp:classesCopy"]}
{"id": "C15", "title": "normalize gives unit p-norm points", "statement": "normalize(p) appends one constant feature to every point and rescales it so its p-norm is one; direction of the original features is kept and no division by zero can occur.", "quantifier": "every real-valued dataset and every p>0", "why_tests_cant": "real-valued inputs", "anchors": ["subprojects/ufjfmltk-core/include/ufjfmltk/core/Data.hpp:normalize"]}
{"id": "C16", "title": "Sampling respects class proportions", "statement": "sampling(m) with replacement returns, for each class, max(1, floor(m*share)) points of that class drawn from the dataset (class after class, the points at the positions the random stream gives), and changes no other dataset; asking for more points than there are stops. Only the first share points of each class in storage order can be drawn. Without replacement the call never returns when there are two or more classes; with one class, if it returns, it returns the first m points once each.", "quantifier": "every dataset, sample size and random stream", "why_tests_cant": "random streams are infinite", "anchors": ["subprojects/ufjfmltk-core/include/ufjfmltk/core/Data.hpp:sampling"]}
{"id": "C17", "title": "CSV write/load round trip", "statement": "A dataset written with write(name,\"csv\") and read back by load has the same number of points, the same feature values in order and the same labels, provided every value has at most six significant digits and is shown without exponent, labels are below 10^6 in absolute value, and no label but 1 is first seen after -1. Outside: values are rounded to six digits, an exponent is dropped by the reader, such a label becomes 1, and a point without features is written out of bounds.", "quantifier": "every dataset with at least one feature and integer labels", "why_tests_cant": "unbounded sizes and values", "anchors": ["subprojects/ufjfmltk-core/include/ufjfmltk/core/Data.hpp:write", "subprojects/ufjfmltk-core/include/ufjfmltk/core/Data.hpp:load_csv", "subprojects/ufjfmltk-core/include/ufjfmltk/core/Data.hpp:process_class"]}
{"id": "C18", "title": "Class-name to label mapping is a function and is injective", "statement": "When a file is loaded, every label is listed in classes() and its count is incremented once per occurrence; equal class strings get equal labels and different class strings different ones when the strings are all words (not starting with -1) or all integers. Mixing numbers, words and fractions breaks both directions, and a class string such as e stops the program.", "quantifier": "every sequence of class strings in a file", "why_tests_cant": "first-seen order matters: sequences are unbounded", "anchors": ["subprojects/ufjfmltk-core/include/ufjfmltk/core/Data.hpp:process_class"]}
{"id": "C19", "title": "File type detection depends on the extension only", "statement": "load() picks the reader named by the text after the last dot of the path when that text is a known type name, rejects it when it contains no type name, and otherwise accepts it as the contained type that ends last; a path without a dot is read out of bounds.", "quantifier": "every path string", "why_tests_cant": "strings are unbounded", "anchors": ["subprojects/ufjfmltk-core/include/ufjfmltk/core/Data.hpp:identifyFileType"]}
{"id": "C20", "title": "tokenize splits at separators", "statement": "tokenize(s,c) returns the maximal non-empty runs of s that do not contain c, in order; joining them with single separators and tokenizing again gives the same tokens.", "quantifier": "every string and separator", "why_tests_cant": "strings are unbounded", "anchors": ["subprojects/ufjfmltk-core/src/Utils.cpp:tokenize"]}
{"id": "C21", "title": "trim removes exactly surrounding white space", "statement": "trim (and its left/right variants) remove the longest white-space prefix and/or suffix and nothing else, and are idempotent.", "quantifier": "every string", "why_tests_cant": "strings are unbounded", "anchors": ["subprojects/ufjfmltk-core/src/Utils.cpp:trim"]}
{"id": "C22", "title": "Integer/text conversions are inverse", "statement": "itos(n) is the decimal representation of n, and stoin reads a decimal numeral without superfluous zeros back to its value, for every int except the smallest, for which both overflow; a leading zero makes stoin return 0.", "quantifier": "every int", "why_tests_cant": "the full int range including its extremes", "anchors": ["subprojects/ufjfmltk-core/src/Utils.cpp:itos", "subprojects/ufjfmltk-core/src/Utils.cpp:stoin"]}
{"id": "C23", "title": "is_number/atod accept and read decimal numerals", "statement": "is_number(s) is true exactly on non-empty strings over the numeral alphabet, and atod reads every plain decimal numeral to the rational it denotes; an exponent, which is_number accepts, is ignored by atod.", "quantifier": "every string", "why_tests_cant": "strings are unbounded", "anchors": ["subprojects/ufjfmltk-core/src/Utils.cpp:is_number", "subprojects/ufjfmltk-core/src/Utils.cpp:atod"]}
{"id": "C24", "title": "Point arithmetic is element-wise", "statement": "Point +,-,*,/ with points and scalars, nested to any depth, give, for operands of equal dimension, the element-wise result of the same dimension, and stop for non-empty operands of unequal dimension; dot is symmetric, bilinear, dot(x,x)=norm(x)^2 and Cauchy-Schwarz holds; normalize gives a vector of norm 1; linspace is evenly spaced between its ends. An operation of a non-empty point with an empty one on the right reads out of bounds.", "quantifier": "all points of every dimension", "why_tests_cant": "unbounded dimensions and real values", "anchors": ["subprojects/ufjfmltk-core/include/ufjfmltk/core/Point.hpp:operator+", "subprojects/ufjfmltk-core/include/ufjfmltk/core/Point.hpp:dot", "subprojects/ufjfmltk-core/include/ufjfmltk/core/ExprOps.hpp"]}
{"id": "C25", "title": "Point assignment copies the value", "statement": "After p = q, p holds the values of q when q is at least as long as p; the values, label and id of p are otherwise kept: a shorter q only overwrites the front, and label and id are never copied.", "quantifier": "every pair of points", "why_tests_cant": "depends on the relative dimensions", "anchors": ["subprojects/ufjfmltk-core/include/ufjfmltk/core/Point.hpp:operator="]}
{"id": "C26", "title": "Point max and min return the extreme element", "statement": "min() of a non-empty point returns an element of the point that bounds all others, and so does max() when some element is at least the smallest positive double; when no element is positive, max() returns that constant, which is not an element.", "quantifier": "every non-empty point", "why_tests_cant": "real-valued vectors", "anchors": ["subprojects/ufjfmltk-core/include/ufjfmltk/core/Point.hpp:max", "subprojects/ufjfmltk-core/include/ufjfmltk/core/Point.hpp:min"]}
{"id": "C27", "title": "Selected distance functors are metrics", "statement": "Euclidean and Manhattan distance are metrics on points of equal dimension: d(x,y)>=0, d(x,y)=0 iff x=y, d(x,y)=d(y,x), d(x,z)<=d(x,y)+d(y,z). Chebyshev distance is the largest coordinate difference when that is at least the smallest positive double, and that constant (not 0) for a point and itself.", "quantifier": "all real points of every dimension", "why_tests_cant": "real-valued inputs", "anchors": ["subprojects/ufjfmltk-core/include/ufjfmltk/core/DistanceMetric.hpp:Euclidean", "subprojects/ufjfmltk-core/include/ufjfmltk/core/DistanceMetric.hpp:Manhattan", "subprojects/ufjfmltk-core/include/ufjfmltk/core/DistanceMetric.hpp:Chebyshev"]}
{"id": "C28", "title": "Dissimilarity functors are symmetric, non-negative and zero on equal points", "statement": "Of the other distance functors, 23 are defined, symmetric, non-negative and zero exactly on equal points, for all points with positive coordinates, and Cosine is symmetric, non-negative and zero on equal points. The remaining ones are not: Neyman, Pearson, K-divergence and Jensen-Shannon are asymmetric, Kullback-Leibler and Lorentzian can be negative, Kumar-Johnson, Bhattacharyya, Chord and AverageL1Linf are not zero on equal points, NonIntersection, JensenDifference and Average are constantly zero, and MinSymmetric is MaxSymmetric.", "quantifier": "all real points of every dimension", "why_tests_cant": "real-valued inputs", "anchors": ["subprojects/ufjfmltk-core/include/ufjfmltk/core/DistanceMetric.hpp"]}
{"id": "C29", "title": "Kernel matrix is the symmetric table of kernel values", "statement": "After compute(data) on a fresh kernel, entry (i,j) is the kernel value of points i and j, the matrix is symmetric, and for the inner-product kernel it is positive semidefinite.", "quantifier": "all real datasets", "why_tests_cant": "real-valued inputs, quadratic forms over all vectors", "anchors": ["subprojects/ufjfmltk-core/include/ufjfmltk/core/Kernel.hpp:compute", "subprojects/ufjfmltk-core/include/ufjfmltk/core/Kernel.hpp:function"]}
{"id": "C30", "title": "Kernel matrix reflects the dataset last passed", "statement": "After any history of compute, setType, setParam and recompute calls the kernel matrix is that of the first dataset passed to compute since the last setType, setParam or recompute, under the type and parameter in force; in particular it describes the dataset just passed when such a call came right before. A second compute without one keeps the old matrix.", "quantifier": "every history of compute/setType/setParam/recompute calls", "why_tests_cant": "cache staleness depends on call history", "anchors": ["subprojects/ufjfmltk-core/include/ufjfmltk/core/Kernel.hpp:compute", "subprojects/ufjfmltk-core/include/ufjfmltk/core/Kernel.hpp:setType", "subprojects/ufjfmltk-core/include/ufjfmltk/core/Kernel.hpp:setParam"]}
{"id": "C31", "title": "H matrices are the label-weighted kernel", "statement": "generateMatrixH gives H[i][j]=y_i*y_j*K(i,j), symmetric, for a fresh object or an unchanged number of points (growing the dataset writes out of bounds). generateMatrixHwithoutDim drops one feature and gives the label-weighted value below and on the diagonal but the bare kernel value above it, so its matrix is not symmetric.", "quantifier": "all labelled real datasets and dropped features", "why_tests_cant": "real-valued inputs", "anchors": ["subprojects/ufjfmltk-core/include/ufjfmltk/core/Kernel.hpp:generateMatrixH", "subprojects/ufjfmltk-core/include/ufjfmltk/core/Kernel.hpp:generateMatrixHwithoutDim"]}
{"id": "C32", "title": "Distance matrix lookup equals the distance", "statement": "A DistanceMatrix built from data with ids 1..n in order holds, for every pair of points, their distance at the position given by their ids, for any order in which the rows are handled; with the diagonal (triangular) layout every pair is stored once. With the same ids in another order the constructor stops.", "quantifier": "every dataset with ids 1..n, every thread count and schedule", "why_tests_cant": "thread schedules", "anchors": ["subprojects/ufjfmltk-core/include/ufjfmltk/core/DistanceMatrix.hpp"]}
{"id": "C33", "title": "parallelize_loop covers the range exactly once", "statement": "parallelize_loop(first,last,f,blocks) calls f on contiguous blocks that partition [min,max) of the two bounds: every index is in exactly one block, in ascending blocks, with no empty block, for any requested number of blocks.", "quantifier": "all bounds and block counts", "why_tests_cant": "unbounded ranges; remainder cases", "anchors": ["subprojects/ufjfmltk-core/include/ufjfmltk/core/ThreadPool.hpp:parallelize_loop"]}
{"id": "C34", "title": "Every submitted task runs exactly once, in submission order of start", "statement": "Under every interleaving of submitting threads and workers each pushed task is started at most once, tasks start in the order they entered the queue, and no task is lost: at any time each pushed task is queued, running or finished.", "quantifier": "every schedule, every number of workers, every sequence of pushes", "why_tests_cant": "interleavings are unbounded", "anchors": ["subprojects/ufjfmltk-core/include/ufjfmltk/core/ThreadPool.hpp:push_task", "subprojects/ufjfmltk-core/include/ufjfmltk/core/ThreadPool.hpp:worker", "subprojects/ufjfmltk-core/include/ufjfmltk/core/ThreadPool.hpp:pop_task"]}
{"id": "C35", "title": "wait_for_tasks returns only when the work is done", "statement": "When wait_for_tasks returns (not paused), every task pushed before the call has finished, and workers that keep running bring the pool there; the task counter is always the number of unfinished tasks. When paused, no task is running on return provided no worker had passed the pause test and nobody pushes meanwhile; otherwise a task can be running, even with one worker and one user thread.", "quantifier": "every schedule", "why_tests_cant": "interleavings are unbounded", "anchors": ["subprojects/ufjfmltk-core/include/ufjfmltk/core/ThreadPool.hpp:wait_for_tasks", "subprojects/ufjfmltk-core/include/ufjfmltk/core/ThreadPool.hpp:get_tasks_running"]}
{"id": "C36", "title": "Pausing and destruction", "statement": "While the pool is paused no new task starts, unless a worker had already passed the pause test, in which case one can; the destructor joins all workers and, when the pool is not paused, every task pushed before has run (a paused pool's tasks are dropped); reset, from one user thread, keeps queued tasks and restores the pause state.", "quantifier": "every schedule", "why_tests_cant": "interleavings are unbounded", "anchors": ["subprojects/ufjfmltk-core/include/ufjfmltk/core/ThreadPool.hpp:worker", "subprojects/ufjfmltk-core/include/ufjfmltk/core/ThreadPool.hpp:reset", "subprojects/ufjfmltk-core/include/ufjfmltk/core/ThreadPool.hpp:~ThreadPool"]}
{"id": "C37", "title": "kNN predicts a plurality label of k nearest neighbours", "statement": "KNNClassifier::evaluate(p) returns a class of the training set whose count among some k nearest training points is maximal (ties in favour of the class listed first), for every admissible outcome of the partial sort.", "quantifier": "all datasets with at least k points, all queries, all metrics, all partial-sort outcomes", "why_tests_cant": "nth_element leaves the order unspecified", "anchors": ["subprojects/ufjfmltk-classifier/include/ufjfmltk/classifier/KNNClassifier.hpp:evaluate"]}
{"id": "C38", "title": "Perceptron success means separation", "statement": "When PerceptronPrimal::train returns true after at least one pass, every training point satisfies y*(w.x+b)>0 for the returned solution, hence evaluate returns its label.", "quantifier": "all datasets with labels +1/-1, all iteration limits and clocks", "why_tests_cant": "depends on the data-dependent number of updates", "anchors": ["subprojects/ufjfmltk-classifier/include/ufjfmltk/classifier/Perceptron.hpp:PerceptronPrimal::train", "subprojects/ufjfmltk-classifier/include/ufjfmltk/classifier/PrimalClassifier.hpp:evaluate"]}
{"id": "C39", "title": "Perceptron mistake bound", "statement": "If the data are separable by a unit vector with margin g and lie in radius r, PerceptronPrimal::train performs at most ((r^2+1)(1+b^2)/g^2) updates whatever the order and limits, so it terminates with success when limits allow.", "quantifier": "all separable datasets, any learning rate>0", "why_tests_cant": "the classical convergence theorem quantifies over all data", "anchors": ["subprojects/ufjfmltk-classifier/include/ufjfmltk/classifier/Perceptron.hpp:PerceptronPrimal::train"]}
{"id": "C40", "title": "Dual perceptron equals primal perceptron", "statement": "With the inner-product kernel a freshly constructed dual perceptron keeps alpha such that sum alpha_i y_i x_i and the bias equal the primal iterates at every step; its reported norm is the norm of that vector; success implies all training points are on their side.", "quantifier": "all datasets, all limits", "why_tests_cant": "real arithmetic, unbounded runs", "anchors": ["subprojects/ufjfmltk-classifier/include/ufjfmltk/classifier/Perceptron.hpp:PerceptronDual::train"]}
{"id": "C41", "title": "Fixed-margin perceptrons establish the margin", "statement": "When a fixed-margin perceptron (primal) returns true after at least one pass, every training point satisfies y*(w.x+b) > gamma*norm - alpha*flexible; norm is the norm of w for the L2, Linf and Lp formulations and w is, for L2, the combination of the points given by the alphas. For the L1 formulation norm lags behind w and a true answer can miss the margin, and with no time for a pass the answer is true for every dataset. The dual version, from a consistent start, keeps function values equal to their definition and answers true only if y*f > gamma*norm everywhere, unless it computes a number that is not finite, which a first training with gamma not 0 always does; with gamma 0 and a positive semidefinite kernel it does not, and the norm kept is an upper bound of, but not equal to, the norm of the implied vector.", "quantifier": "all datasets, all limits, all gammas", "why_tests_cant": "real arithmetic, unbounded runs", "anchors": ["subprojects/ufjfmltk-classifier/include/ufjfmltk/classifier/Perceptron.hpp:PerceptronFixedMarginPrimal::train", "subprojects/ufjfmltk-classifier/include/ufjfmltk/classifier/Perceptron.hpp:PerceptronFixedMarginDual::train"]}
{"id": "C42", "title": "One-vs-one voting", "statement": "OneVsOne::evaluate returns the first class with the largest number of pairwise wins; if one class wins all of its duels it is returned; total votes equal the number of duels.", "quantifier": "all class lists and all base-learner answers", "why_tests_cant": "unbounded number of classes and votes", "anchors": ["subprojects/ufjfmltk-classifier/include/ufjfmltk/classifier/OneVsOne.hpp:evaluate", "subprojects/ufjfmltk-classifier/include/ufjfmltk/classifier/OneVsOne.hpp:train"]}
{"id": "C43", "title": "One-vs-all decision", "statement": "OneVsAll trains learner i on the whole data relabelled +1 for class i and -1 otherwise, leaving the caller's data untouched, and evaluate returns the class whose learner gives the largest value.", "quantifier": "all class lists, datasets and base-learner answers", "why_tests_cant": "unbounded", "anchors": ["subprojects/ufjfmltk-classifier/include/ufjfmltk/classifier/OneVsAll.hpp:train", "subprojects/ufjfmltk-classifier/include/ufjfmltk/classifier/OneVsAll.hpp:evaluate"]}
{"id": "C44", "title": "SMO keeps the dual feasible", "statement": "At every point of SMO training 0<=alpha_i<=C for every i and sum alpha_i*y_i=0.", "quantifier": "all datasets with labels +1/-1, all kernels, all numbers of steps", "why_tests_cant": "real arithmetic, unbounded runs", "anchors": ["subprojects/ufjfmltk-classifier/include/ufjfmltk/classifier/SMO.hpp:take_step", "subprojects/ufjfmltk-classifier/include/ufjfmltk/classifier/SMO.hpp:train"]}
{"id": "C45", "title": "SMO support-vector list", "statement": "During SMO training the support-vector list holds exactly the indices with positive alpha, each once, and no freed node is ever followed.", "quantifier": "all runs", "why_tests_cant": "heap shapes depend on the run", "anchors": ["subprojects/ufjfmltk-classifier/include/ufjfmltk/classifier/SMO.hpp:take_step", "subprojects/ufjfmltk-classifier/src/int_dll.cpp"]}
{"id": "C46", "title": "Doubly linked list operations", "statement": "append inserts a fresh node right after the given node, remove unlinks exactly the given node and returns its predecessor, free releases every node once; forward and backward traversals stay mirror images.", "quantifier": "all lists and operation sequences", "why_tests_cant": "heap shapes are unbounded", "anchors": ["subprojects/ufjfmltk-classifier/src/int_dll.cpp:append", "subprojects/ufjfmltk-classifier/src/int_dll.cpp:remove", "subprojects/ufjfmltk-classifier/src/int_dll.cpp:free"]}
{"id": "C47", "title": "kNN regression averages the k nearest", "statement": "KNNRegressor::evaluate(p) is the mean label of the k points nearest to p (earlier points first among equals), so it lies between the smallest and largest training label.", "quantifier": "all datasets with at least k>=1 points and all queries", "why_tests_cant": "real values, unbounded data", "anchors": ["subprojects/ufjfmltk-regressor/include/ufjfmltk/regressor/KNNRegressor.hpp:evaluate"]}
{"id": "C48", "title": "MSE is a proper error measure", "statement": "MSE(real,pred) is the mean of squared differences: non-negative, zero iff the vectors are equal, symmetric.", "quantifier": "all real vectors of equal non-zero length", "why_tests_cant": "real values", "anchors": ["subprojects/ufjfmltk-regressor/include/ufjfmltk/regressor/Metrics.hpp:MSE"]}
{"id": "C49", "title": "LMS update rule", "statement": "LMSPrimal::train performs at most MAX_IT passes, stopping early only by its cost test or the time limit, and each step moves the weights against the error by the learning rate and the bias by the whole error (not by the learning rate), which multiplies the error at that point by minus the learning rate times the squared norm of the point.", "quantifier": "all datasets", "why_tests_cant": "unbounded runs", "anchors": ["subprojects/ufjfmltk-regressor/include/ufjfmltk/regressor/LMS.hpp:train"]}
{"id": "C50", "title": "k-means assigns to the nearest centre", "statement": "KMeans::evaluate(p) is the index of a centre at minimal distance (the first such), and the first call of clusters() places every training point once, in the cluster of its nearest centre; every further call adds all the points a second time.", "quantifier": "all datasets with ids 1..n, all centres, any number of calls", "why_tests_cant": "state carried between calls", "anchors": ["subprojects/ufjfmltk-clusterer/include/ufjfmltk/clusterer/KMeans.hpp:evaluate", "subprojects/ufjfmltk-clusterer/include/ufjfmltk/clusterer/KMeans.hpp:clusters", "subprojects/ufjfmltk-clusterer/include/ufjfmltk/clusterer/KMeans.hpp:assign_clusters"]}
{"id": "C51", "title": "k-means centres are cluster means", "statement": "Each update step of KMeans with no empty cluster sets every centre to (old centre + sum of its points) / (number of its points), which is the mean of the points exactly when the old centre is 0; an empty cluster gives a centre that is not a number. Training is a run of these steps from the points drawn.", "quantifier": "all datasets and iterations", "why_tests_cant": "real values, unbounded iterations", "anchors": ["subprojects/ufjfmltk-clusterer/include/ufjfmltk/clusterer/KMeans.hpp:compute_centers"]}
{"id": "C52", "title": "Hard and weighted voting", "statement": "VotingClassifier::evaluate returns the first class of maximal total weight of agreeing learners (weight one each for hard voting); with a strict majority for one class that class is returned.", "quantifier": "all learners, weights and class lists", "why_tests_cant": "unbounded committees", "anchors": ["subprojects/ufjfmltk-ensemble/include/ufjfmltk/ensemble/VotingClassifier.hpp:evaluate", "subprojects/ufjfmltk-ensemble/include/ufjfmltk/ensemble/BaggingClassifier.hpp:evaluate", "subprojects/ufjfmltk-ensemble/include/ufjfmltk/ensemble/PerceptronCommittee.hpp:evaluate"]}
{"id": "C53", "title": "AdaBoost sample weights stay a probability distribution", "statement": "With at least two points and two classes, after every boosting round the sample weights are positive and sum to one, and evaluate returns the first class of the training data with the largest vote; with one class, or one wrong point, a round takes the logarithm of 0.", "quantifier": "all datasets, learners, rounds", "why_tests_cant": "real values, unbounded rounds", "anchors": ["subprojects/ufjfmltk-ensemble/include/ufjfmltk/ensemble/AdaBoostClassifier.hpp:train", "subprojects/ufjfmltk-ensemble/include/ufjfmltk/ensemble/AdaBoostClassifier.hpp:evaluate"]}
{"id": "C54", "title": "Simplex projection lands on the simplex", "statement": "The weight vectors produced with the simplex option are non-negative; they sum to one, and are the input shifted by a constant, when the entries are at least some m >= 0 with sum - n*m <= 1; (0,1,1) is a vector of weights in [0,1] for which the sum is 2, and fewer than two weights stop the program.", "quantifier": "all weight vectors", "why_tests_cant": "real values", "anchors": ["subprojects/ufjfmltk-ensemble/include/ufjfmltk/ensemble/AutoWeightedVoting.hpp:simplex_projection"]}
{"id": "C55", "title": "k-fold split tests every point once and never trains on it", "statement": "kfoldsplit(data,k), for k>=3 and every outcome of the shuffles, returns k train/test pairs: in each pair train and test together hold every point exactly once, over the k pairs every point is in exactly one test set, and stratified folds differ by at most one point per class; the unstratified split does so for all but n mod k points. With two folds every test set is its training set, and with one stratified fold memory is accessed out of bounds; kkfoldsplit repeats kfoldsplit.", "quantifier": "all datasets, k>=2, every shuffle outcome", "why_tests_cant": "shuffle outcomes and sizes are unbounded", "anchors": ["subprojects/ufjfmltk-valid/include/ufjfmltk/valid/Validation.hpp:kfoldsplit", "subprojects/ufjfmltk-core/include/ufjfmltk/core/Data.hpp:splitSample"]}
{"id": "C56", "title": "Train/test split is a partition", "statement": "Stratified partTrainTest(data,k) puts every point in exactly one of train and test, and the test part has the size of one fold (up to one point); unstratified, the same holds for all but n mod k points, which are in neither part.", "quantifier": "all datasets, k>=1, all shuffles", "why_tests_cant": "unbounded", "anchors": ["subprojects/ufjfmltk-valid/include/ufjfmltk/valid/Validation.hpp:partTrainTest"]}
{"id": "C57", "title": "Confusion matrix counts predictions", "statement": "generateConfusionMatrix returns, when every prediction is a listed class, an n_classes x n_classes table whose entries sum to the number of samples and whose entry (i,j) counts the samples predicted as class i of true class j (the transpose of what is documented); an unlisted prediction is counted as the first class.", "quantifier": "all datasets, all learners answering with listed classes", "why_tests_cant": "unbounded", "anchors": ["subprojects/ufjfmltk-valid/include/ufjfmltk/valid/Validation.hpp:generateConfusionMatrix", "subprojects/ufjfmltk-valid/include/ufjfmltk/valid/Validation.hpp:metricsReport"]}
{"id": "C58", "title": "Accuracy measures agree", "statement": "accuracy(data,model) is the fraction of correctly predicted samples and, when every prediction is a listed class, equals confusionMatrixAccuracy of the confusion matrix divided by 100, and metricsReport's accuracy when no positive class is given; with a positive class given, metricsReport's accuracy can be lower.", "quantifier": "all datasets and models", "why_tests_cant": "unbounded", "anchors": ["subprojects/ufjfmltk-valid/include/ufjfmltk/valid/Validation.hpp:accuracy", "subprojects/ufjfmltk-valid/include/ufjfmltk/valid/Validation.hpp:confusionMatrixAccuracy", "subprojects/ufjfmltk-valid/include/ufjfmltk/valid/Validation.hpp:metricsReport"]}
{"id": "C59", "title": "classificationReport is total and correct", "statement": "classificationReport(real,predicted), when exactly two labels 1 and n occur, reports the numbers of true and false positives and negatives and the accuracy, but truncates its ratios: sensitivity and specificity are 1 when there is no false negative and 0 otherwise, precision is 1 when there is no false positive and 0 otherwise. With any other number of labels it accesses memory out of bounds.", "quantifier": "all label vectors", "why_tests_cant": "unbounded", "anchors": ["subprojects/ufjfmltk-valid/include/ufjfmltk/valid/Validation.hpp:classificationReport"]}
{"id": "C60", "title": "k-fold error estimate is the mean fold error", "statement": "For a primal classifier, 3 <= k <= size and every shuffle outcome, kfold returns error = mean over folds of the percentage of misclassified test points and accuracy = 100 - error, between 0 and 100, each time trained only on points outside the test fold. For a dual classifier the test fold is part of the training set.", "quantifier": "all datasets, classifiers, k", "why_tests_cant": "unbounded", "anchors": ["subprojects/ufjfmltk-valid/include/ufjfmltk/valid/Validation.hpp:kfold"]}
{"id": "C61", "title": "Seeding makes runs reproducible", "statement": "random::init(seed), with a seed other than 0 and other than the one in force, followed by the same sequence of integer draws produces the same values, within their bounds, independently of what happened before; init(0), when a seed is in force, takes and reports a device value; if that is not 0 the run can be repeated with it. init with the seed in force (which is 1 at program start) does nothing, so that a program starting with init(1) is not reproducible and a second init(7) does not restart the sequence.", "quantifier": "every history of init/draw calls", "why_tests_cant": "state carried across calls", "anchors": ["subprojects/ufjfmltk-core/src/Random.cpp:init"]}
{"id": "C62", "title": "Random subspace selection", "statement": "Every call of an RSM object with a ratio r in [0,1] returns ceil(r*dim) different zero-based feature positions below dim, however often it was called before, and every such choice is returned for some shuffle; these are positions, not the one-based feature names of the dataset, and a ratio above 1 reads out of bounds.", "quantifier": "all dimensions, ratios, and sequences of calls with any shuffles", "why_tests_cant": "Unbounded number of calls and dimensions; every permutation of the features.", "anchors": ["subprojects/ufjfmltk-core/include/ufjfmltk/core/Sampling.hpp"]}
{"id": "C63", "title": "SMOTE interpolates inside the minority class", "statement": "SMOTE only appends points labelled with the first least frequent class and leaves existing points unchanged: for each minority point and each of its min(k, number of different non-zero distances) nearest minority points, one artificial point z + a*(z - w). w is that neighbour when the minority points come first in the dataset, and otherwise the point of the whole dataset at the neighbour's position among the minority points; the artificial point lies beyond z, not on the segment.", "quantifier": "all datasets, random streams", "why_tests_cant": "real values", "anchors": ["subprojects/ufjfmltk-core/include/ufjfmltk/core/Sampling.hpp:SMOTE"]}
{"id": "C64", "title": "Synthetic dataset sizes", "statement": "make_spirals(n, k) returns k*floor(n/k) points, floor(n/k) of each class, on the spirals when there is no noise; make_blobs with sizes gives each center the sum of all sizes, and make_blobs(n, k) gives k*floor(n/k) points to each center (k times the requested number); labels are 1..k (or -1 and 1 for two), ids and index are numbered afresh.", "quantifier": "all sizes and class counts", "why_tests_cant": "unbounded", "anchors": ["subprojects/ufjfmltk-core/src/Datasets.cpp:make_blobs", "subprojects/ufjfmltk-core/src/Datasets.cpp:make_spirals"]}
{"id": "C65", "title": "Statistics", "statement": "For vectors mean, variance and standard deviation are the textbook (population) ones: variance is non-negative and zero iff constant, and the empty vector stops; covariance has the sample divisor, is symmetric and satisfies Cauchy-Schwarz, and covariance(x,x)=variance exactly for constant x; for one number it is 0/0. For datasets the mean is the textbook one, the deviation has the sample divisor (equal to the vector version only if 0), var(data,f) is the sum of the variances of all features except f; radius with q=2 is the largest distance of a point to the centroid, with q=1 the largest absolute coordinate, and 1 for any other q.", "quantifier": "all real vectors and datasets", "why_tests_cant": "real values", "anchors": ["subprojects/ufjfmltk-core/include/ufjfmltk/core/Statistics.hpp"]}
{"id": "C66", "title": "Feature rankers keep the best features", "statement": "When every class has two points and no feature is constant on both (so the scores are finite), Fisher and Golub selection return the dataset restricted to the requested number of features (at least one), those with the highest textbook scores, whenever every intermediate training succeeds; otherwise the best-scored features at the last successful training. Requesting none leaves one; requesting more than there are throws.", "quantifier": "all datasets, scores and classifiers", "why_tests_cant": "unbounded", "anchors": ["subprojects/ufjfmltk-featselect/include/ufjfmltk/featselect/Fisher.hpp:selectFeatures", "subprojects/ufjfmltk-featselect/include/ufjfmltk/featselect/Golub.hpp:selectFeatures"]}
{"id": "C67", "title": "Recursive feature elimination reaches the requested dimension", "statement": "With a positive jump and no cross-validation, RFE removes, level by level, the features of smallest absolute weight, returns exactly final_dim features when training succeeds at every level, gives an empty dataset for invalid depths, and returns the whole dataset as soon as one training fails. With a jump of 0, which a first call leaves behind when the jump does not divide the depth, it never ends.", "quantifier": "all datasets, weights and jump sizes", "why_tests_cant": "unbounded", "anchors": ["subprojects/ufjfmltk-featselect/include/ufjfmltk/featselect/RFE.hpp:selectFeatures"]}
{"id": "C68", "title": "Dual and primal evaluation", "statement": "PrimalClassifier/DualClassifier::evaluate return +1 iff the decision value is non-negative and -1 otherwise, 0 on a dimension mismatch, and agree when w is the alpha-combination of the training points.", "quantifier": "all solutions and points", "why_tests_cant": "real values", "anchors": ["subprojects/ufjfmltk-classifier/include/ufjfmltk/classifier/PrimalClassifier.hpp:evaluate", "subprojects/ufjfmltk-classifier/include/ufjfmltk/classifier/DualClassifier.hpp:evaluate"]}
{"id": "C69", "title": "Visiting index enumerates every point once", "statement": "In a dataset built by insertions the index (the order in which trainers visit points) is the list of all positions in order; after a removal and further insertions it need not be a permutation of the positions.", "quantifier": "all operation histories", "why_tests_cant": "histories are unbounded", "anchors": ["subprojects/ufjfmltk-core/include/ufjfmltk/core/Data.hpp:insertPoint", "subprojects/ufjfmltk-core/include/ufjfmltk/core/Data.hpp:removePoint", "subprojects/ufjfmltk-core/include/ufjfmltk/core/Data.hpp:shuffle", "subprojects/ufjfmltk-core/include/ufjfmltk/core/Data.hpp:resetIndex"]}
{"id": "C70", "title": "Binary rates of metricsReport", "statement": "For two classes with one declared positive, metricsReport on the matrix from generateConfusionMatrix reports the numbers of true positives and true negatives, but the number of false negatives as false positives and the number of false positives as false negatives, so that the sensitivity reported is the precision and the other way round, for every dataset and model.", "quantifier": "all datasets and models with two classes", "why_tests_cant": "unbounded", "anchors": ["subprojects/ufjfmltk-valid/include/ufjfmltk/valid/Validation.hpp:metricsReport", "subprojects/ufjfmltk-valid/include/ufjfmltk/valid/Validation.hpp:generateConfusionMatrix"]}
{"id": "C71", "title": "Dual norms equal the norm of the weight vector", "statement": "With an inner-product kernel computed on the data and non-negative dual variables, featureSpaceNorm(data) returns the Euclidean norm of sum_i alpha_i y_i x_i; norm(data) need not.", "quantifier": "all real labelled datasets", "why_tests_cant": "real values", "anchors": ["subprojects/ufjfmltk-core/include/ufjfmltk/core/Kernel.hpp:featureSpaceNorm", "subprojects/ufjfmltk-core/include/ufjfmltk/core/Kernel.hpp:norm"]}
{"id": "C72", "title": "Retraining is consistent", "statement": "After a training of the primal perceptron from scratch, or one that made an update, the reported norm is the Euclidean norm of the weights. A second training without an update need not report the norm of its weights, and a second training of the dual perceptron can add the weights to the old ones, so that weights, alphas and norm no longer describe the same hyperplane.", "quantifier": "all datasets and histories of trainings", "why_tests_cant": "stale state shows only after histories", "anchors": ["subprojects/ufjfmltk-classifier/include/ufjfmltk/classifier/Perceptron.hpp:PerceptronDual::train", "subprojects/ufjfmltk-classifier/include/ufjfmltk/classifier/Perceptron.hpp:PerceptronPrimal::train"]}
{"id": "C73", "title": "SMO error cache", "statement": "Throughout SMO training the cached error of every example with 0<alpha_i<C equals its current decision value minus its label, so reading the cache never differs from recomputing.", "quantifier": "all datasets with labels +1/-1, all symmetric kernels, all sequences of pair steps", "why_tests_cant": "the cache is maintained incrementally along unbounded runs", "anchors": ["subprojects/ufjfmltk-classifier/include/ufjfmltk/classifier/SMO.hpp:take_step", "subprojects/ufjfmltk-classifier/include/ufjfmltk/classifier/SMO.hpp:max_errors"]}
{"id": "C74", "title": "SMO improves the dual objective", "statement": "With a kernel whose feature-space squared distances are not negative no SMO step decreases the dual objective, so training ends with an objective of at least 0.", "quantifier": "all datasets with labels +1/-1, all such kernels, all runs", "why_tests_cant": "real-valued objective over unbounded runs", "anchors": ["subprojects/ufjfmltk-classifier/include/ufjfmltk/classifier/SMO.hpp:take_step", "subprojects/ufjfmltk-classifier/include/ufjfmltk/classifier/SMO.hpp:train"]}
{"id": "C75", "title": "SMO's answer true", "statement": "When SMO training of examples with pairwise different images answers true, every example meets the optimality conditions within the tolerance, or no pair containing it can make progress of the step threshold; when examples coincide in feature space training can answer true with all alphas 0 although no example is optimal.", "quantifier": "all datasets with labels +1/-1, all symmetric kernels, all runs", "why_tests_cant": "needs the final scan over every pair", "anchors": ["subprojects/ufjfmltk-classifier/include/ufjfmltk/classifier/SMO.hpp:train", "subprojects/ufjfmltk-classifier/include/ufjfmltk/classifier/SMO.hpp:examine_example"]}
{"id": "C76", "title": "CSV reading is memory-safe and rectangular", "statement": "Loading any text as CSV with the label first never accesses memory out of bounds; the points read all have dim() features, ids and feature names 1,2,..., and the class counts are those of the labels when no line starts with a delimiter (otherwise a label can be missing in classes()). With the label last the same safety holds when no line is empty or ends with a delimiter, and a line ending with one is read out of bounds.", "quantifier": "every text", "why_tests_cant": "the space of malformed files is unbounded", "anchors": ["subprojects/ufjfmltk-core/include/ufjfmltk/core/Data.hpp:load_csv", "subprojects/ufjfmltk-core/include/ufjfmltk/core/Data.hpp:process_class"]}
{"id": "C77", "title": ".data reading is memory-safe", "statement": "Loading a .data text whose lines consist of a class without ':' and items name:value with int names, separated by single blanks, never accesses memory out of bounds; what is read has rectangular points, as many feature names, ids 1,2,..., and every label listed and counted. A line without a class writes out of bounds, and two blanks in a row give the point the label 0, which is in no class.", "quantifier": "every text", "why_tests_cant": "the space of malformed files is unbounded", "anchors": ["subprojects/ufjfmltk-core/include/ufjfmltk/core/Data.hpp:load_data"]}
{"id": "C78", "title": ".data write/load round trip", "statement": "A dataset written with write(name,\"data\") and read back has the same points, labels, feature values and feature names, under the conditions of the CSV round trip on values and labels.", "quantifier": "every dataset with at least one feature and integer labels", "why_tests_cant": "unbounded sizes and values", "anchors": ["subprojects/ufjfmltk-core/include/ufjfmltk/core/Data.hpp:write", "subprojects/ufjfmltk-core/include/ufjfmltk/core/Data.hpp:load_data"]}
{"id": "C79", "title": "kNN reported probability", "statement": "After evaluate, the prediction probability reported by a nearest-neighbour classifier is 1 whatever the votes, for two or more classes and k at most 999 per further class, and so is not the smoothed share of the winning class.", "quantifier": "all k, numbers of classes and vote counts", "why_tests_cant": "the formula ranges over all vote outcomes", "anchors": ["subprojects/ufjfmltk-classifier/include/ufjfmltk/classifier/KNNClassifier.hpp:evaluate"]}
{"id": "C80", "title": "kNN with precomputed distances", "statement": "A nearest-neighbour classifier that was given the full distance matrix of a dataset containing training points and query classifies by the same rule as one that computes distances on the fly; with a triangular matrix this holds when the query is not a training point and can fail when it is. After precomputeDistances every evaluation stops, because the matrix is not stored.", "quantifier": "all datasets, all queries in the dataset, all metrics, full and triangular matrices", "why_tests_cant": "unbounded datasets; silent wrong neighbours", "anchors": ["subprojects/ufjfmltk-classifier/include/ufjfmltk/classifier/KNNClassifier.hpp:setPrecomputedDistances", "subprojects/ufjfmltk-classifier/include/ufjfmltk/classifier/KNNClassifier.hpp:precomputeDistances"]}
{"id": "C81", "title": "k-means starting centres", "statement": "With random initialisation KMeans::train starts from training points whenever every number drawn is below the number of points; the generator's upper bound, the number of points, is a possible draw and is read out of bounds.", "quantifier": "all datasets, all values the generator may return", "why_tests_cant": "one in n+1 draws is the bad one", "anchors": ["subprojects/ufjfmltk-clusterer/include/ufjfmltk/clusterer/KMeans.hpp:train", "subprojects/ufjfmltk-core/src/Random.cpp:intInRange"]}
{"id": "C82", "title": "AdaBoost votes follow the multi-class rule", "statement": "A point the learner gets wrong gains weight relative to one it gets right exactly when the vote is positive, and a learner right everywhere leaves the weights alone; but the vote of a learner with one mistake is computed from the sum of squared weights, so that it is not the multi-class exponential-loss vote of its weighted error.", "quantifier": "all weights, learners and numbers of classes", "why_tests_cant": "real values; every weight vector", "anchors": ["subprojects/ufjfmltk-ensemble/include/ufjfmltk/ensemble/AdaBoostClassifier.hpp:train"]}
{"id": "C83", "title": "Voting weights are configuration", "statement": "Weights given with setWeights are the weights of every later soft evaluation, whatever soft evaluations and changes of the type happen in between, and the evaluation returns the first class of largest total weight; a hard evaluation overwrites them with ones.", "quantifier": "every history of setWeights, setVotingType and evaluate", "why_tests_cant": "histories of calls", "anchors": ["subprojects/ufjfmltk-ensemble/include/ufjfmltk/ensemble/VotingClassifier.hpp:setWeights", "subprojects/ufjfmltk-ensemble/include/ufjfmltk/ensemble/VotingClassifier.hpp:evaluate"]}
{"id": "C84", "title": "Inserting a point of another dataset", "statement": "Inserting a point taken from one dataset into another with keepIndex set changes nothing in any existing dataset; without keepIndex the point is renumbered in the dataset it was taken from as well.", "quantifier": "every heap of points, receiving and source dataset, position and flag", "why_tests_cant": "aliasing between datasets", "anchors": ["subprojects/ufjfmltk-core/include/ufjfmltk/core/Data.hpp:insertPoint"]}
{"id": "C85", "title": "Class counts of the binary training sets", "statement": "The class counts of the datasets OneVsAll hands to its learners are those of the first two classes of the training data, and those of OneVsOne's datasets are 0, whatever their +1/-1 labels; so they need not agree with the labels.", "quantifier": "every dataset and class list", "why_tests_cant": "the count of a relabelled set is never inspected by a test", "anchors": ["subprojects/ufjfmltk-classifier/include/ufjfmltk/classifier/OneVsAll.hpp:train", "subprojects/ufjfmltk-classifier/include/ufjfmltk/classifier/OneVsOne.hpp:train", "subprojects/ufjfmltk-core/include/ufjfmltk/core/Data.hpp:setClasses"]}
{"id": "C86", "title": "normalize keeps the dataset well formed", "statement": "After normalize the feature names are as many as the features, positive, distinct and increasing, and the class bookkeeping is unchanged; this requires a non-empty dataset whose feature names do not exceed its dimension (no feature removed before).", "quantifier": "every well-formed dataset and p>0", "why_tests_cant": "interaction of feature removal and normalisation", "anchors": ["subprojects/ufjfmltk-core/include/ufjfmltk/core/Data.hpp:normalize"]}
{"id": "C87", "title": "Ids in a sample", "statement": "Two entries of a sample returned by sampling have the same id exactly when they are the same drawn point, so the ids are distinct exactly when no point was drawn twice; with replacement one can be.", "quantifier": "every dataset, sample size and random stream", "why_tests_cant": "needs a stream that draws the same point twice", "anchors": ["subprojects/ufjfmltk-core/include/ufjfmltk/core/Data.hpp:sampling"]}
{"id": "C88", "title": "Distance between class centres", "statement": "When both kinds of labels occur distCenters returns the Euclidean distance between the mean of the points labelled 1 and the mean of the other points, over all features except the one named (not a number when all labels are 1); distCentersWithoutFeats measures exactly the features it is told to leave out.", "quantifier": "all rectangular datasets in which both kinds of labels occur", "why_tests_cant": "real values, unbounded sizes", "anchors": ["subprojects/ufjfmltk-core/include/ufjfmltk/core/Statistics.hpp:distCenters", "subprojects/ufjfmltk-core/include/ufjfmltk/core/Statistics.hpp:distCentersWithoutFeats"]}
{"id": "C89", "title": "Artificial regression data", "statement": "make_regression returns n points of n_dims values and n_dims coefficients, those past the number of informative features being 0, and each target is the product of the point with the coefficients plus the bias plus a noise that is 0 unless a positive noise was asked for.", "quantifier": "all sizes, numbers of informative features, draws and shuffles", "why_tests_cant": "All sizes and all draws; unit tests fix a seed.", "anchors": ["subprojects/ufjfmltk-core/src/Datasets.cpp:make_regression"]}
{"id": "C90", "title": "Weights reported by a dual classifier", "statement": "For a dataset whose points all have the same dimension, getWeight() of a dual classifier returns one number per feature, the sum over the examples of dual variable times label times feature value, and getDualWeightProdInt() returns the squares of those numbers. getDualWeight(), for every kernel that is not a custom one and a kernel object whose H matrix is fresh or of the right size, returns for each feature the quadratic form of the dual variables in the difference of the label-weighted kernel matrices with and without the feature, where above the diagonal the matrix without the feature lacks the labels; so it equals the squared weight for the inner product when there is one class only, and a feature of weight 0 can get -4 when there are two (recorded as a refutation).", "quantifier": "all datasets with points of one dimension, all dual variables, all kernels and parameters", "why_tests_cant": "a unit test compares one weight vector on one dataset with one kernel; that the expression equals the squared weight depends on every pair of labels", "anchors": ["subprojects/ufjfmltk-classifier/include/ufjfmltk/classifier/DualClassifier.hpp:getWeight", "subprojects/ufjfmltk-classifier/include/ufjfmltk/classifier/DualClassifier.hpp:getDualWeight", "subprojects/ufjfmltk-classifier/include/ufjfmltk/classifier/DualClassifier.hpp:getDualWeightProdInt"]}
{"id": "C91", "title": "The solution an SMO training stores", "statement": "For labels 1 and -1, points of one dimension, positive C and tolerance and any kernel but a custom one, SMO training ends, leaves no list node behind, and stores feasible dual variables, the number of positive ones, one weight per feature, and as margin the inverse of the feature-space norm of the solution (infinite when the norm is 0); evaluate() then gives the sign of the kernel expansion plus bias. With the inner product the stored weights and bias are that classifier, the margin is the inverse of the Euclidean norm of the weights, and when training answers true on distinct points every example below the bound lies at a distance of at least (1 - tolerance) times the margin on its side, unless no pair with it can make progress. With the polynomial kernel of degree 1 the squares of the weights are stored, and with a custom kernel training throws on every non-empty dataset (both recorded as refutations).", "quantifier": "all datasets, parameters, heaps and numbers of epochs", "why_tests_cant": "a test sees one trained model; that the stored weights, bias and margin describe the predictions needs an argument about every reachable training state", "anchors": ["subprojects/ufjfmltk-classifier/include/ufjfmltk/classifier/SMO.hpp:train", "subprojects/ufjfmltk-classifier/include/ufjfmltk/classifier/DualClassifier.hpp:evaluate"]}
{"id": "C92", "title": "The incremental margin algorithm separates and measures the margin", "statement": "IMAp training (no initial solution) on points of one dimension ends without an access outside an array. With zero flexibility, the answer true means every training point lies strictly on its own side of the stored hyperplane, and the answer false leaves zero weights. With both labels present, any formulation but L1, and points less than DBL_MAX apart, the stored norm is positive and the stored margin is half the gap between the values of the closest point of each class divided by that norm. Started from an initial solution, training of a non-empty dataset instead reads an empty weight vector.", "quantifier": "all datasets with labels 1 and -1, parameters, clocks and norms", "why_tests_cant": "the algorithm runs an unbounded number of rounds of an unbounded trainer over real values", "anchors": ["subprojects/ufjfmltk-classifier/include/ufjfmltk/classifier/IMA.hpp:IMAp::train", "subprojects/ufjfmltk-classifier/include/ufjfmltk/classifier/IMA.hpp:IMApFixedMargin::train"]}
{"id": "C93", "title": "The incremental margin algorithm increases the margin", "statement": "With zero flexibility, both labels present, any formulation but L1, and points less than DBL_MAX apart, the margins IMAp training reports, one per round, strictly increase, and the last is the one stored; with the Euclidean norm it is positive and at most half the distance between any two training points of different classes.", "quantifier": "all datasets with labels 1 and -1, parameters, clocks and numbers of rounds", "why_tests_cant": "a statement about unboundedly many rounds and about an optimum over all pairs of points", "anchors": ["subprojects/ufjfmltk-classifier/include/ufjfmltk/classifier/IMA.hpp:IMAp::train"]}
{"id": "C94", "title": "What a trained IMAp answers", "statement": "After an IMAp training that answered true on both labels (zero flexibility, any formulation but L1), evaluate() gives 1 to a point with as many features as the data exactly if its value reaches half the gap between the values of the closest training points of the two classes, -1 otherwise, and 0 to a point with another number of features. So training points labelled -1 get -1, while the closest training point labelled 1 gets 1 only if it is at least as far from the hyperplane as the closest one labelled -1: the bias is stored unshifted but compared with the centred margin. After training on label 1 only, every point whose value is below half of DBL_MAX norms gets -1.", "quantifier": "all datasets, all points evaluated", "why_tests_cant": "holds or fails depending on real-valued training results", "anchors": ["subprojects/ufjfmltk-classifier/include/ufjfmltk/classifier/IMA.hpp:IMAp::evaluate", "subprojects/ufjfmltk-classifier/include/ufjfmltk/classifier/IMA.hpp:IMAp::train"]}
{"id": "C95", "title": "Balanced perceptron training", "statement": "Training a BalancedPerceptron ends without reading outside an array and makes at most one update more than the maximum number of updates. If it answers true after at least one epoch, every training point has label 1 or -1 and evaluate returns that label, also after the final shift of the bias; with both classes present the hyperplane is balanced: the closest points of the two classes have opposite values. If some hyperplane through the origin separates the points with positive margin, training answers true once the limits on epochs and updates are large enough, whatever the start and the order. The bias takes no part in training: an answer true means that the returned weights separate the points through the origin, so data separable only with a bias are never learnt. With a maximum of 0 epochs train answers true for every dataset.", "quantifier": "all real datasets with rectangular points, initial weights, orders, learning rates, limits and clocks", "why_tests_cant": "Convergence and the balance of the final hyperplane hold over all datasets, orders and random starts; a test sees one seed.", "anchors": ["subprojects/ufjfmltk-classifier/include/ufjfmltk/classifier/Perceptron.hpp:BalancedPerceptron::train", "subprojects/ufjfmltk-classifier/include/ufjfmltk/classifier/Perceptron.hpp:BalancedPerceptron::evaluate"]}
{"id": "C96", "title": "Dual incremental margin training", "statement": "Training an IMADual ends without reading outside an array: it stores a solution or meets a number that is not finite. With the inner product the stored weights are the combination of the training points given by the stored alphas. If it answers false, the stored alphas and the margin are 0. If it answers true, starting from points with alphas 0 and with no alpha rounded to 0, some bias makes the stored alphas classify every training point; the stored bias does so if the training ended because the margin stopped growing. Otherwise it need not: training usually ends with an inner call that fails, and the bias of that call is stored with the alphas of the call before, so evaluate can misclassify a training point although train answered true. The same holds of the support vectors: they are the points with a stored alpha that is not 0 if the training ended because the margin stopped growing, and otherwise those of the failed call, so that a support vector can have a stored alpha of 0. Training again starts from the alphas the points were left with while values and bias start from 0, so a second training on the same data can answer true and misclassify data the first one classified. The stored margin is not the distance from the hyperplane to the closest training point.", "quantifier": "all real datasets with rectangular points and labels 1 and -1, every kernel but the custom one, all rates, limits, tolerances and clocks", "why_tests_cant": "The stored solution mixes the results of two inner calls; which two depends on the data, the limits and the clock.", "anchors": ["subprojects/ufjfmltk-classifier/include/ufjfmltk/classifier/IMA.hpp:IMADual::train", "subprojects/ufjfmltk-classifier/include/ufjfmltk/classifier/Perceptron.hpp:PerceptronFixedMarginDual::train", "subprojects/ufjfmltk-classifier/include/ufjfmltk/classifier/DualClassifier.hpp:evaluate"]}
{"id": "C97", "title": "What the report of kfold contains", "statement": "For a classifier that is not dual and data with two classes, at least three folds and as many points, the report of kfold has, besides error and accuracy: precision, recall and true negative rate equal to the sum over j of the share computed on the first j folds together, not on fold j, and not divided by the number of folds; they are not a number if the first fold has no point to count. The four counts are likewise sums of running totals, so together they always exceed the number of points. A classifier that never errs gets precision and recall equal to the number of folds or not a number, never 1. Label -1 is the only negative one: with two other labels there are no negatives and the true negative rate is not a number. With any other number of classes these fields stay 0.", "quantifier": "all datasets, classifiers, shuffles and numbers of folds from 3 to the size of the data, stratified or not", "why_tests_cant": "The counters are carried from fold to fold; a test on one dataset only compares with a recorded number.", "anchors": ["subprojects/ufjfmltk-valid/include/ufjfmltk/valid/Validation.hpp:kfold", "subprojects/ufjfmltk-valid/include/ufjfmltk/valid/Validation.hpp:ValidationReport"]}
{"id": "C98", "title": "Repeated cross-validation", "statement": "With at least one execution, three folds and as many points, kkfold reports as error the mean of the errors of its executions of kfold, each with its own shuffles, between 0 and 100, and as accuracy the complement to 100. Precision, recall, true negative rate and the four counts are 0 whatever the classifier answered. The classifier is left trained on the training part of one more stratified split of the data. With no execution the report says error 0 and accuracy 0. With one fold and at least one execution, and with no folds, the call is undefined behaviour.", "quantifier": "all datasets, classifiers that are not dual, shuffles, numbers of executions and folds", "why_tests_cant": "The mean ranges over random executions and the zero fields hold for every classifier.", "anchors": ["subprojects/ufjfmltk-valid/include/ufjfmltk/valid/Validation.hpp:kkfold"]}
{"id": "C99", "title": "Comparing, copying and assigning datasets", "statement": "On well-formed datasets == answers without reading outside any vector, is an equivalence, and says true exactly when rows of feature values, class list, class counts, feature names, index, dimension, the empty and normalized flags and the names of the positive and negative class agree; != is its negation. Labels, ids and alphas take no part: two datasets with the same counts and different labels are equal. A dataset is equal to the one it was assigned from. Its copy is equal to it exactly when its class names are the default 1 and -1. Assigning does not carry over whether the counts are known, so counting the classes afterwards can do nothing. Comparing a cleared dataset that had a class with a fresh one reads outside a vector, while the comparison the other way says they are equal.", "quantifier": "all pairs and triples of well-formed datasets over any feature type with decidable equality, and all names of the two classes", "why_tests_cant": "It quantifies over all datasets and needs transitivity; the out-of-range read and the ignored fields do not show in tests that compare copies of default datasets.", "anchors": ["subprojects/ufjfmltk-core/include/ufjfmltk/core/Data.hpp:operator==", "subprojects/ufjfmltk-core/include/ufjfmltk/core/Data.hpp:operator!=", "subprojects/ufjfmltk-core/include/ufjfmltk/core/Data.hpp:operator=", "subprojects/ufjfmltk-core/include/ufjfmltk/core/Data.hpp:copy", "subprojects/ufjfmltk-core/include/ufjfmltk/core/Data.hpp:clear"]}
{"id": "C100", "title": "Name of a loaded dataset", "statement": "The name of a dataset is the last non-empty component of its path without leading dots, up to its first dot; trailing slashes are ignored. A last component of dots only gives the empty name. An empty path, or one of slashes only, is undefined behaviour. Files of one directory that differ only after their first dot get the same name.", "quantifier": "all paths", "why_tests_cant": "It ranges over all strings.", "anchors": ["subprojects/ufjfmltk-core/include/ufjfmltk/core/Data.hpp:discover_dataset_name"]}
{"id": "C101", "title": "Columns, labels and point-wise changes", "statement": "getFeature(j) of a well-formed dataset lists, in the order of the points, the value at position j of each point; outside the dimension of a non-empty dataset the program stops at an assertion, so with features named 1 to dim the name of the last feature is no valid argument. getLabels() lists the labels in order. apply(f) replaces each point by f of it, in place; when f keeps labels and dimensions the dataset stays well-formed and its labels stay. Labels changed by f do not reach the class list and counts.", "quantifier": "all well-formed datasets, positions and functions", "why_tests_cant": "It ranges over all datasets, positions and user functions.", "anchors": ["subprojects/ufjfmltk-core/include/ufjfmltk/core/Data.hpp:getFeature", "subprojects/ufjfmltk-core/include/ufjfmltk/core/Data.hpp:getLabels", "subprojects/ufjfmltk-core/include/ufjfmltk/core/Data.hpp:labels", "subprojects/ufjfmltk-core/include/ufjfmltk/core/Data.hpp:apply", "subprojects/ufjfmltk-core/include/ufjfmltk/core/Point.hpp:operator[]"]}
{"id": "C102", "title": "Reading ARFF files", "statement": "Reading the data part of an ARFF file (lines of comma separated cells, the class last, the same number of cells on every line) into a fresh dataset gives one point per line: features the numbers in its cells (0 for a cell that is no number), labels those of C18 for the class cells in order, ids and feature names 1, 2, .... Any text whose lines are not empty and do not end with a comma is read without going out of bounds. A file with its header is not read: one line without a comma among lines with one makes load answer false. A line ending with a comma, load(file, false) on three columns or more, and reading a file of numeric features into a dataset that already knows its class words, write outside the point.", "quantifier": "all texts, all tables of cells and all datasets loaded into", "why_tests_cant": "It ranges over all files; the out-of-bounds writes are silent in most builds.", "anchors": ["subprojects/ufjfmltk-core/include/ufjfmltk/core/Data.hpp:load_arff", "subprojects/ufjfmltk-core/include/ufjfmltk/core/Data.hpp:load", "subprojects/ufjfmltk-core/include/ufjfmltk/core/Data.hpp:process_class"]}
{"id": "C103", "title": "Reading TXT files", "statement": "Reading any text as .txt never goes out of bounds. When two lines differ in the number of columns after the second the answer is false and the dataset is as before; otherwise there is one point per line, with ids 1, 2, .... For a table of blank separated cells the features are the numbers in the columns from the third on (0 for a cell that is no number), the first two columns are ignored and every label is 0. The class list and counts are not touched, so a fresh dataset has points whose class it does not list.", "quantifier": "all texts and datasets", "why_tests_cant": "It ranges over all files.", "anchors": ["subprojects/ufjfmltk-core/include/ufjfmltk/core/Data.hpp:load_txt", "subprojects/ufjfmltk-core/include/ufjfmltk/core/Data.hpp:load"]}
{"id": "C104", "title": "Writing a file and loading it back by name", "statement": "write(dir/name, csv) or write(dir/name, data) followed by load of the path written gives a well-formed dataset named name with the same labels and feature values in order (and, for data, the same feature names), for values that six significant digits show. With the extension plt one row per point is written, its label and then its feature values; a point without features is then read out of bounds. With the extension txt the file is empty and so is what is read. load refuses files of type plt and files whose extension contains no known type, and leaves points, classes and counts. Reading a CSV file into a dataset that holds points replaces the points and adds to the class counts: each count is the sum over old and new points, so the counts are wrong. After load, successful or not, computeClassesDistribution does nothing.", "quantifier": "all well-formed datasets and all paths with a name without dots; all CSV files whose lines do not start with a delimiter", "why_tests_cant": "It composes file type, name, formatting and parsing over all datasets and paths; reuse of a dataset object is a state no fixed test covers.", "anchors": ["subprojects/ufjfmltk-core/include/ufjfmltk/core/Data.hpp:write", "subprojects/ufjfmltk-core/include/ufjfmltk/core/Data.hpp:load", "subprojects/ufjfmltk-core/include/ufjfmltk/core/Data.hpp:load_csv", "subprojects/ufjfmltk-core/include/ufjfmltk/core/Data.hpp:load_data", "subprojects/ufjfmltk-core/include/ufjfmltk/core/Data.hpp:computeClassesDistribution"]}
{"id": "C105", "title": "Borderline oversampling", "statement": "The borderline SMOTE sampler finds the points in danger: those of any class for which, among m points at the m smallest different non-zero distances, at least m/2 (rounded down) but not all carry the most frequent label. With no such point the dataset is unchanged. Otherwise SMOTE is run on the points in danger alone (so the artificial points get the least frequent label among the points in danger), the points in danger followed by the shuffled artificial points are numbered from 1, and exactly those whose new number is the old id of a point in danger are appended to the dataset; existing points keep their features, labels and order. So when the points in danger stand first in a freshly numbered dataset they are all inserted a second time (as the same objects) and no artificial point is. If some point has fewer than m different non-zero distances to the others, always so when m is at least the number of points, a null pointer is read.", "quantifier": "all datasets held by pointers, values of m and k, random draws, sorts by distance and shuffles", "why_tests_cant": "Object identity and overwritten ids are invisible in the returned values; all m, k and shuffles.", "anchors": ["subprojects/ufjfmltk-core/include/ufjfmltk/core/Sampling.hpp:BorderlineSMOTEOne::operator()"]}
{"id": "C106", "title": "Choosing diverse feature subspaces", "statement": "With alpha in [0,1], labels and features that vary, n at most the number of features, and alpha*N below 1.01*(N-1) for N points, a DSM object built on a dataset returns k subspaces of n different zero-based feature positions. Each entry in turn, over all subspaces, is the first feature not yet in the subspace with the largest alpha times N/(N-1) times the correlation with the labels, plus (1-alpha)/2 times the share of subspaces without it; the overlap between subspaces never changes the choice. Called again with more features than n the same holds. For few points the first guard is needed: with two points and alpha 1 a feature can be taken twice. If all labels are equal every subspace is the first feature repeated n times.", "quantifier": "all datasets, numbers of subspaces and features, weights alpha, and calls", "why_tests_cant": "The choice depends on real-valued scores over all features and all earlier choices.", "anchors": ["subprojects/ufjfmltk-core/include/ufjfmltk/core/Sampling.hpp:DSM::operator()", "subprojects/ufjfmltk-core/include/ufjfmltk/core/Sampling.hpp:DSM::qual_correlation", "subprojects/ufjfmltk-core/include/ufjfmltk/core/Sampling.hpp:DSM::div_ms", "subprojects/ufjfmltk-core/include/ufjfmltk/core/Sampling.hpp:DSM::div_mx"]}
{"id": "C107", "title": "Automatic weighting returns its best random start", "statement": "AutoWeightedVoting::train, when it returns, leaves as weights the first of the weight vectors drawn at the start among those with the most right answers on the validation part, and getBestGeneration() is 0: the generations never change the answer, because a new vector replaces an old one only when it does not do better. Each new vector crosses the best vector with three different others of the population and is scaled to length 1 (or projected). evaluate then answers the class of largest total weight under that vector. With one member and free weights, two or more generations never end, and the seed does not determine the validation split (it lands on the parameter that switches stratification).", "quantifier": "all well-formed datasets, all members (any answers), all shuffles, draws, population sizes, numbers of generations and both weight modes", "why_tests_cant": "A test sees one random run and a plausible accuracy; it cannot tell that no run, for any draws, ever improves on the initial draw.", "anchors": ["subprojects/ufjfmltk-ensemble/include/ufjfmltk/ensemble/AutoWeightedVoting.hpp:train", "subprojects/ufjfmltk-ensemble/include/ufjfmltk/ensemble/AutoWeightedVoting.hpp:new_sample", "subprojects/ufjfmltk-ensemble/include/ufjfmltk/ensemble/AutoWeightedVoting.hpp:objective_function", "subprojects/ufjfmltk-ensemble/include/ufjfmltk/ensemble/VotingClassifier.hpp:evaluate", "subprojects/ufjfmltk-valid/include/ufjfmltk/valid/Validation.hpp:partTrainTest"]}
{"id": "C108", "title": "Bagging trains every member on its own sample, all taken from the same few points", "statement": "BaggingClassifier with k members on n points, 1 <= k <= n and every listed class present: train() gives member i a well-formed sample of its own with floor(n/k) of the points in proportion to the classes (at least one per class), drawn with replacement by the generator seeded with seed + i, and leaves the ensemble's samples as they are; members share no points with each other. evaluate answers the first of the labels most members answer. But sampling with replacement draws only from the first points of each class, so all members together see at most floor(n/k) plus one per class of the points, whatever the seed; ensembles with consecutive seeds share all samples but one; with k = 0 or k > n training is undefined behaviour.", "quantifier": "all datasets, numbers of members, seeds, random streams and estimators", "why_tests_cant": "whether a point can ever be drawn is a statement about all seeds and all members; a test sees some draws of one seed", "anchors": ["subprojects/ufjfmltk-ensemble/include/ufjfmltk/ensemble/BaggingClassifier.hpp:train", "subprojects/ufjfmltk-ensemble/include/ufjfmltk/ensemble/BaggingClassifier.hpp:evaluate", "subprojects/ufjfmltk-core/include/ufjfmltk/core/Data.hpp:sampling"]}
{"id": "C109", "title": "A committee of perceptrons answers the training labels", "statement": "PerceptronCommittee::train with n members always returns; every member is a BalancedPerceptron trained on the committee's samples in some order, and the samples are rearranged but keep their points and class counts. If the labels are 1 and -1, n >= 1 and a hyperplane through the origin separates the points with a positive margin, then with limits on epochs and updates that are large enough for the margin the committee answers the label of every training point, for all drawn weights and shuffles. In general evaluate takes the majority of the members' signs, a tie going to the label listed first, when both labels are listed; if a member answers a label that is not listed, evaluate stops; a committee without members answers the first listed class for every point.", "quantifier": "all rectangular datasets, numbers of members, drawn weights, shuffles, clocks and limits", "why_tests_cant": "the members share one dataset which each of them reorders; a test sees one sequence of shuffles and weights", "anchors": ["subprojects/ufjfmltk-ensemble/include/ufjfmltk/ensemble/PerceptronCommittee.hpp:train", "subprojects/ufjfmltk-ensemble/include/ufjfmltk/ensemble/PerceptronCommittee.hpp:evaluate", "subprojects/ufjfmltk-classifier/include/ufjfmltk/classifier/Perceptron.hpp:BalancedPerceptron"]}
{"id": "C110", "title": "The search queue of AOS always yields a best node", "statement": "In any history of insertions and extractions on a queue with room for `capacity` nodes, whose nodes stay alive and keep their values, each extraction returns a node of greatest value among those held, removes exactly that node, and returns nothing only when the queue is empty. While there is room every insertion is accepted. When the queue is full, an insertion either puts the newcomer in the place of some node of strictly smaller value, or refuses it because some node held is worth at least as much. The counters of first insertions and reinsertions count the accepted ones. Inserting up to `capacity` nodes and extracting them all gives them in decreasing order of value. What is not guaranteed: the node displaced from a full queue, or the one the newcomer is compared to, need not be the least valuable, so a newcomer better than the worst node can be refused. The count of projected nodes is the number of nodes held that are not trained yet; the largest size recorded is the largest after any of the calls; the destructor deletes exactly the nodes held, and when a node was inserted twice that deletes it twice, which is undefined behaviour.", "quantifier": "All capacities of at least one, all node values, all sequences of insertions (first or repeated) and extractions, of any length.", "why_tests_cant": "The state space of heap contents and the histories over it are unbounded; a test fixes a few sequences.", "anchors": ["subprojects/ufjfmltk-featselect/include/ufjfmltk/featselect/AOS.hpp:Heap::insert", "subprojects/ufjfmltk-featselect/include/ufjfmltk/featselect/AOS.hpp:Heap::pop", "subprojects/ufjfmltk-featselect/include/ufjfmltk/featselect/AOS.hpp:Heap::percolate"]}
{"id": "C111", "title": "The table of visited nodes of AOS keeps one node per set of features", "statement": "Adding nodes, each listing as many features as its level says, to an empty table answers true exactly for the first node with its list of features, and false for the later ones, which are deleted. Of the nodes with the same features the table keeps the first; if that one was not trained yet (negative real margin) its value and projected margin become those of the most valuable node with these features, otherwise it stays as it is. No other node changes, and the counter is the number of nodes kept. Two nodes compare equal exactly when their feature lists are equal. Once more distinct lists than a row has places fall in one row (the row depends only on the sum of the squares of the features), the program exits. The comparison of two weights by operator== is false even for a weight and itself.", "quantifier": "All numbers of rows, all row widths at least the number of distinct feature lists, all finite sequences of nodes, all stores.", "why_tests_cant": "Collisions depend on sums of squares of feature numbers; a test cannot exhaust the sequences and collisions.", "anchors": ["subprojects/ufjfmltk-featselect/include/ufjfmltk/featselect/AOS.hpp:Hash::add", "subprojects/ufjfmltk-featselect/include/ufjfmltk/featselect/AOS.hpp:Hash::Hash", "subprojects/ufjfmltk-featselect/include/ufjfmltk/featselect/AOS.hpp:Node::operator==", "subprojects/ufjfmltk-featselect/include/ufjfmltk/featselect/AOS.hpp:select_weight"]}
{"id": "C112", "title": "Pruning the search queue of AOS removes exactly the stale nodes", "statement": "Cutting a queue removes and deletes exactly the nodes whose level is below the given level and which are either worth less than 95% of the given margin or at least `cut` levels below it, keeps all the others, leaves every other node of the program as it is, and adds the number removed to its counter. It does not keep the order: after a cut an extraction can return a node worth less than another one in the queue.", "quantifier": "All queues of distinct live nodes, all levels, cuts and margins.", "why_tests_cant": "The removed set depends on every combination of levels and values in queues of any size.", "anchors": ["subprojects/ufjfmltk-featselect/include/ufjfmltk/featselect/AOS.hpp:Heap::cut"]}
{"id": "C113", "title": "The queue and the table of visited nodes of AOS share their nodes", "statement": "Adding a node to the table leaves what every earlier node is worth unchanged when its features are new or some earlier node with these features is worth at least as much; then the order of the queue is not affected. Otherwise the table raises the value of the first node with these features while it is in the queue, without moving it: an extraction can return another node although the raised one is worth strictly more. After a cut the table still points to the deleted nodes: adding any node that falls in the row of a deleted one is undefined behaviour, a read of freed memory.", "quantifier": "All tables of any size, all sequences of nodes, all queues of at least two places, all cuts.", "why_tests_cant": "The interaction needs particular orders of additions, insertions and cuts and particular collisions; reading freed memory usually goes unnoticed in a test.", "anchors": ["subprojects/ufjfmltk-featselect/include/ufjfmltk/featselect/AOS.hpp:Hash::add", "subprojects/ufjfmltk-featselect/include/ufjfmltk/featselect/AOS.hpp:Heap::cut", "subprojects/ufjfmltk-featselect/include/ufjfmltk/featselect/AOS.hpp:Heap::pop"]}
{"id": "C114", "title": "The admissible ordered search of AOS returns a trained subset of the features, and ends", "statement": "With the default choice, any order in which the sort leaves the weights, one child or more per node, and a classifier that gives one weight per feature, not all 0, and a positive margin whenever training succeeds: selectFeatures answers, after at most b*T turns (b children, T the turns below a node at depth 1), the dataset without some of its features, at most as many as were to be taken away, with points, labels and ids unchanged; unless no feature was taken away, the classifier was trained with success on exactly that dataset. If every training succeeds and the queue can hold b*T nodes, the result has exactly the number of features asked for. This holds when the children per node and the features to take away are together at most the number of features, and feature sets that differ in size by two or more never fall in the same row of the table, with no row overfull. With more children than that, and trainings that succeed, the search reads past the end of the weights (undefined behaviour); the default of three children does so when one or two features are asked for. With no children it returns an empty dataset.", "quantifier": "All valid datasets with two or more features, all classifiers and sorts of the kind described, all breadths, depths and cuts, all table and queue sizes.", "why_tests_cant": "The search visits exponentially many feature sets, trained in an order that depends on the data; a test sees one run.", "anchors": ["subprojects/ufjfmltk-featselect/include/ufjfmltk/featselect/AOS.hpp:AOS::selectFeatures", "subprojects/ufjfmltk-featselect/include/ufjfmltk/featselect/AOS.hpp:AOS::mainLoop", "subprojects/ufjfmltk-featselect/include/ufjfmltk/featselect/AOS.hpp:AOS::AOS"]}
{"id": "C115", "title": "AOS never ends with a classifier that reports no margin", "statement": "When one feature is to be taken away and every training succeeds with a margin of 0 or less, selectFeatures does not return after any number of turns: each node is trained, put back and trained again. The perceptrons, primal and dual, leave a margin of 0 in their solution.", "quantifier": "All valid datasets with two or more features, all such classifiers, all breadths from one on, all cuts, all numbers of turns.", "why_tests_cant": "That a program never ends cannot be observed by a test.", "anchors": ["subprojects/ufjfmltk-featselect/include/ufjfmltk/featselect/AOS.hpp:AOS::selectFeatures", "subprojects/ufjfmltk-featselect/include/ufjfmltk/featselect/AOS.hpp:AOS::mainLoop"]}
{"id": "C116", "title": "AOS takes away the features of greatest weight first", "statement": "With one child per node, the default sorting and trainings that succeed, selectFeatures is an elimination: train on all features, take away one of greatest absolute weight, train on the rest, and so on, as many times as there are features to take away; the result is the last dataset. The value by which children are ordered is sqrt(k)*|w_i|*|margin|/norm(w), where w_i is the weight of the feature taken away and k the number left, so it is larger for larger weights, although the margin left after projecting a feature away is smaller for larger weights.", "quantifier": "All valid datasets with two or more features, all classifiers with one weight per feature, not all 0, and positive margins, all depths; all weight vectors for the order.", "why_tests_cant": "The order of elimination depends on the weights of every training; a test compares final accuracy only.", "anchors": ["subprojects/ufjfmltk-featselect/include/ufjfmltk/featselect/AOS.hpp:AOS::mainLoop", "subprojects/ufjfmltk-featselect/include/ufjfmltk/featselect/AOS.hpp:AOS::selectFeatures"]}
{"id": "C117", "title": "Point expressions refer to their operands: when they may be used later", "statement": "Initialising a point with an expression of any depth gives its value. x = e and x += e (-=, *=, /=), where x may occur in e coordinate by coordinate, give the same as if e had been evaluated first, and change nothing but x. With a coordinate of x itself as the number (x /= x[k]) the coordinates after the k-th are computed with its new value, so that they stay as they were; x = x[p] overwrites values before they are read. An expression kept with auto is evaluated when used: one operation on named points gives the value at that time; with an operation inside another, or with a literal number, it refers to destroyed temporaries and any use is undefined behaviour. auto h = x with a point is a copy of its own. Points of different sizes in one operation, or a result that does not fit the point assigned to, end the program.", "quantifier": "All expressions, all memories of named points of equal dimension, all later states of the memory.", "why_tests_cant": "Whether a destroyed object is read does not show in a run; aliasing needs particular statements.", "anchors": ["subprojects/ufjfmltk-core/include/ufjfmltk/core/Point.hpp:Point::operator=", "subprojects/ufjfmltk-core/include/ufjfmltk/core/Point.hpp:Point::operator/=", "subprojects/ufjfmltk-core/include/ufjfmltk/core/ExprOps.hpp:BExprOp", "subprojects/ufjfmltk-core/include/ufjfmltk/core/ExprScalar.hpp:A_Scalar", "subprojects/ufjfmltk-core/include/ufjfmltk/core/ExprTraits.hpp:A_Traits"]}
{"id": "C118", "title": "Copies of a kernel classifier share its kernel object", "statement": "Copying an SMO, a PerceptronDual or an IMADual copies the pointer to its kernel, not the kernel, and not the solution. A program with copies behaves as if each classifier had a kernel of its own (same samples, solutions and answers) when a trained SMO is never copied, a kernel that may be shared is not changed by setKernelType or setKernelParam, and a perceptron or IMA trains right after recomputeKernel() or with an unshared kernel without stored matrix. Outside these rules: a trained SMO and its copy cannot both be trained or destroyed (the kernel is deleted twice), so a trained SMO cannot serve OneVsOne or OneVsAll; the copies of a perceptron or IMA that OneVsOne and OneVsAll train in turn all use the kernel matrix of the first pair of classes, or read outside it when a later pair has more samples, and a perceptron can then report convergence and misclassify its own training point; a kernel type set on one copy changes the answers of the other; a copy asked before its own training reads outside its empty alphas; the kernel type set on a PerceptronDual constructed without one is ignored. SMOs delete all their kernels, perceptrons and IMAs none.", "quantifier": "every sequence of constructions, copies, setters, trainings and destructions, any datasets, kernel types, parameters and training outcomes", "why_tests_cant": "Aliasing depends on the whole history of copies; a test with one pair of classes or with an SMO sees no difference.", "anchors": ["subprojects/ufjfmltk-classifier/include/ufjfmltk/classifier/DualClassifier.hpp:DualClassifier", "subprojects/ufjfmltk-classifier/include/ufjfmltk/classifier/SMO.hpp:SMO::train", "subprojects/ufjfmltk-classifier/include/ufjfmltk/classifier/Perceptron.hpp:PerceptronDual::train", "subprojects/ufjfmltk-classifier/include/ufjfmltk/classifier/IMA.hpp:IMADual::train", "subprojects/ufjfmltk-classifier/include/ufjfmltk/classifier/OneVsOne.hpp:OneVsOne", "subprojects/ufjfmltk-classifier/include/ufjfmltk/classifier/OneVsAll.hpp:OneVsAll", "subprojects/ufjfmltk-core/include/ufjfmltk/core/Kernel.hpp:Kernel::compute"]}
{"id": "C119", "title": "Plot folders belong to one plot object", "statement": "In a program that makes plot objects (Visualization) of one element type, alone in its working directory, every plot object with samples has a plottempN folder of its own that did not exist before; at any moment it holds the files of the samples last given, no other plottempN folder is left, and objects with keep_temp_files leave the files they give up in saved folders. Making a plot object never changes another folder. But destroying it also deletes every existing plottempN folder whose number was tried while looking for a free one: folders of other programs, of earlier runs, and of plot objects of another element type that are still in use. With keep_temp_files the files are lost when a saved folder with the same number and second is there already.", "quantifier": "every sequence of constructions, setSample calls and destructions of plot objects, any initial folders, element types and time stamps", "why_tests_cant": "A test starts in a clean directory with one plot object; the deletion needs folders of somebody else.", "anchors": ["subprojects/ufjfmltk-visual/include/ufjfmltk/visual/Visualization.hpp:Visualization::create_plotfolder", "subprojects/ufjfmltk-visual/include/ufjfmltk/visual/Visualization.hpp:Visualization::removeTempFiles", "subprojects/ufjfmltk-visual/include/ufjfmltk/visual/Visualization.hpp:Visualization::~Visualization"]}
{"id": "C120", "title": "Each plot file holds the points of one class", "statement": "For classification data whose classes have distinct names without '/' and whose points all carry a known label, the files made for plotting are one <name>.plt per class, holding exactly the points of that class in dataset order, one line per point with its coordinates separated by a space; no other file is touched. Data without classes goes to samples.plt, coordinates and value per line. Otherwise: the points of a class whose name has a '/' are in no file; two classes with one name write over each other; a label without a class is undefined behaviour; and for named data without classes the file name returned is not that of the file written.", "quantifier": "every list of points, classes and names, every text of the numbers, every previous content of the folder", "why_tests_cant": "the streams interleave and the number of points, classes and names is unbounded", "anchors": ["subprojects/ufjfmltk-visual/include/ufjfmltk/visual/Visualization.hpp:createTempFiles"]}
{"id": "C121", "title": "Plot titles name the class of their file", "statement": "In the plot commands of plot2D, plot3D and the plots with hyperplanes, every class of the data appears once, in the order of its label, with the title of its own class, whatever order the folder lists its files in, when the names of the classes are distinct, not empty and have no '.' or '/'. The decision surface writes its own files and titles them correctly when names have no '_' or '/'. Otherwise: with two classes or more, a class name that has a '.' (or is empty), where what precedes it is no class name, makes plot2D and plot3D fail; one with '_' makes the decision surface fail, and one with '/' makes it return an empty script; without classes the loop of plot3D runs out of range.", "quantifier": "every dataset, every order of the folder listing, every name", "why_tests_cant": "the result depends on the order readdir gives and on arbitrary names", "anchors": ["subprojects/ufjfmltk-visual/include/ufjfmltk/visual/Visualization.hpp:sortLabels", "subprojects/ufjfmltk-visual/include/ufjfmltk/visual/Visualization.hpp:getTempFilesNames", "subprojects/ufjfmltk-visual/include/ufjfmltk/visual/Visualization.hpp:plot2D", "subprojects/ufjfmltk-visual/include/ufjfmltk/visual/Visualization.hpp:plotDecisionSurface2D"]}
{"id": "C122", "title": "Axis ranges hold the data up to rounding", "statement": "With a scale of at least one, the range a plot sets for an axis has whole ends and every value of the feature lies within half a unit of it; when all values are whole numbers every value lies inside, and at scale one the lower end is the least value and the upper end the greatest (0 when no value is positive). Values that are not whole can be cut off: at scale one, a positive least value whose fraction is at least one half lies outside; and when all values are between -1/2 and 1/2 (as in normalised data) the range is [0:0]. Ranges computed from points instead of features are set exactly when the two ends differ.", "quantifier": "every non-empty list of values, every scale", "why_tests_cant": "values and their number are unbounded reals", "anchors": ["subprojects/ufjfmltk-visual/include/ufjfmltk/visual/Visualization.hpp:configureRange"]}
{"id": "C123", "title": "The decision surface shows the learner on the two features", "statement": "For x before y in a dataset whose features still have their original numbers, plotDecisionSurface2D gives the learner exactly features x and y of every point, with the labels, and writes an n by n grid: entry (i, j) has the i-th of n evenly spaced values over the range of feature x, the j-th over that of y, and the answer of the learner there. With x after y the learner is given the two features in the other order but is still asked with the value of x first, and the scatter plot has the axes exchanged. Equal features, or a dataset from which feature x+1 or y+1 was removed, stop the program.", "quantifier": "every dataset, features, grid size and learner", "why_tests_cant": "the learner and the data are arbitrary, and the wrong order is not visible in the output", "anchors": ["subprojects/ufjfmltk-visual/include/ufjfmltk/visual/Visualization.hpp:plotDecisionSurface2D"]}
{"id": "C124", "title": "Drawn lines and planes are those of the solution", "statement": "The line plot2DwithHyperplane draws passes exactly through the points (other features 0) where the decision function of the solution is 0, and the two lines of the margin where it is -margin*norm and +margin*norm; plot3DwithHyperplane likewise with planes; the fitted line and plane of the regression plots give the prediction. This needs different features on the axes and a non-zero weight of the last one: with weight 0 no line is drawn, and with the same feature twice the line meets the diagonal at half the place of the boundary. A norm that is not a number counts as 0 in two dimensions, but in three the margin planes are missing. The points of the regression plots are the chosen features and the value, but plot1DRegresion shows the second feature instead of the value as soon as there are two features.", "quantifier": "all weight vectors of any length, biases, margins, norms, chosen features and points of the plane or space", "why_tests_cant": "A test looks at the command text for one solution; that the text describes the boundary is an equivalence over all real points and all solutions.", "anchors": ["subprojects/ufjfmltk-visual/include/ufjfmltk/visual/Visualization.hpp:plot2DwithHyperplane", "subprojects/ufjfmltk-visual/include/ufjfmltk/visual/Visualization.hpp:plot3DwithHyperplane", "subprojects/ufjfmltk-visual/include/ufjfmltk/visual/Visualization.hpp:plot1DRegresion", "subprojects/ufjfmltk-visual/include/ufjfmltk/visual/Visualization.hpp:plot1DRegresionHyperplane", "subprojects/ufjfmltk-visual/include/ufjfmltk/visual/Visualization.hpp:plot2DRegresionHyperplane"]}
{"id": "C125", "title": "A plot is drawn with the settings its call asked for", "statement": "With a session per plot, every plot is drawn with exactly the terminal, output file, title, ranges and labels asked for by its call, whatever the object drew before, unless the plot before it was a decision surface that failed: its ranges stay for a plot that has none. In a shared session each setting has the last value any plot asked for, so a title, range, output file or surface map stays for later plots that leave it out, and the settings are the asked ones exactly when nothing before gave those left out. setTitle has no effect on any plot. The returned script, run on its own, gives what the call asked for; only that of plot3DwithHyperplane has no settings at all. Its statements are on lines of their own exactly if none of them contains a semicolon.", "quantifier": "all programs of plots and setters of any length on one object, shared or not, and all options", "why_tests_cant": "What leaks from one plot to another depends on the whole history of the object and of the session; tests draw single plots and do not look at gnuplot's state.", "anchors": ["subprojects/ufjfmltk-visual/include/ufjfmltk/visual/Visualization.hpp:configurePlot", "subprojects/ufjfmltk-visual/include/ufjfmltk/visual/Visualization.hpp:fetchConfigs", "subprojects/ufjfmltk-visual/include/ufjfmltk/visual/Visualization.hpp:execute_command", "subprojects/ufjfmltk-visual/include/ufjfmltk/visual/Visualization.hpp:prepareScript", "subprojects/ufjfmltk-visual/include/ufjfmltk/visual/Visualization.hpp:setTitle"]}
{"id": "C126", "title": "Numbers written as text", "statement": "utils::dtoa writes a number between 1e-9 and 1e14 (negative ones to -1e9) as a decimal that is at most 1e-9 below it in absolute value, with a sign exactly for negative numbers, and utils::atod reads it back to within 1e-9; larger and smaller ones get a non-zero digit, at most nine more after the dot and the power of ten, with the same precision relative to that power; the text always fits the buffer. But 1e-9 and all smaller powers of ten become texts such as :e-10 that are no numbers, minus infinity is written without its sign, and atod ignores the exponent of the texts that have one.", "quantifier": "all rationals in the range of a double, and the special values", "why_tests_cant": "The digits come from a loop over an unbounded set of inputs with a fixed buffer; tests check a handful of numbers and no one tests exact powers of ten at the switch to the exponent.", "anchors": ["subprojects/ufjfmltk-core/src/Utils.cpp:dtoa", "subprojects/ufjfmltk-core/src/Utils.cpp:atod", "subprojects/ufjfmltk-core/include/ufjfmltk/core/Utils.hpp:PRECISION"]}
{"id": "C127", "title": "The look-ahead of AOS trains on features it has taken away", "statement": "selectFeatures of AOS without look-ahead (setLookAheadDepth(0), the default) is the search of C114-C116. With a look-ahead depth above 0: from all features, with trainings that succeed, the look-ahead takes as many features as its depth, the depth of the search and the number of features less one allow, one per turn, adds one node per turn with the features taken so far to the queue, and picks at each turn the first of least absolute weight. But every training it runs is on the sample with all of its features, from any state of the search, so the margin of such a node is not that of the features left to it; the weights of a later turn are read at the places of the features left although they belong to all of them; a primal classifier is handed the weights of all features but the last and the one taken, those of all turns so far one after the other, hence from the second training on more weights than the node has features; and the margin it answers is 0 whatever happened, so that the g_margin given to the constructor has no effect on the result.", "quantifier": "every dataset, look-ahead depth, classifier (an oracle for each training), search state, weights, and run length", "why_tests_cant": "The search is run on large data with random trainings; whether a node's margin comes from the right features, and whether g_margin matters, cannot be seen from a result.", "anchors": ["subprojects/ufjfmltk-featselect/include/ufjfmltk/featselect/AOS.hpp:lookAhead", "subprojects/ufjfmltk-featselect/include/ufjfmltk/featselect/AOS.hpp:mainLoop", "subprojects/ufjfmltk-featselect/include/ufjfmltk/featselect/AOS.hpp:setLookAheadDepth"]}
{"id": "C128", "title": "Curves of one kind share a picture until a reset", "statement": "In a gnuplot session opened with a style and driven by any sequence of calls of its class (raw commands, settings, styles, smoothing, curves from files, functions, images, replot, reset), as long as no text given to a setting or raw command contains 'plot' and no text given to a curve, style or smoothing contains 'splot' or 'replot' and multiplot is not switched, the commands sent leave on gnuplot's screen exactly what the caller asked for: the first curve, the first one after reset_plot/reset_all and the first one of the other dimension (2-D or 3-D) starts a new picture, every other curve joins the one shown, each with its title (or the documented default), the style or smoothing in force and its columns; a call whose file is missing throws and changes nothing; gnuplot never gets a replot before any plot. Outside that: set_multiplot and unset_multiplot count as a plot, as does any label or title containing 'plot', so the next 2-D curve of a new session is sent as a replot without a picture and gnuplot reports an error; a first curve whose title or file name contains 'replot' is not counted and the second curve erases it; a 2-D curve containing 'splot' is recorded as 3-D, so the next 2-D curve erases it and a 3-D curve is added to the 2-D picture.", "quantifier": "every session style, terminal, file system, sequence of calls and texts", "why_tests_cant": "Tests need a gnuplot process and look at one or two plots; whether the counter kept by the class agrees with the picture over all call sequences and all texts is a simulation argument.", "anchors": ["subprojects/ufjfmltk-visual/src/gnuplot_i.cpp:Gnuplot::cmd", "subprojects/ufjfmltk-visual/src/gnuplot_i.cpp:Gnuplot::plotfile_xy", "subprojects/ufjfmltk-visual/src/gnuplot_i.cpp:Gnuplot::plot_equation", "subprojects/ufjfmltk-visual/src/gnuplot_i.cpp:Gnuplot::set_style", "subprojects/ufjfmltk-visual/include/ufjfmltk/visual/gnuplot_i.hpp:Gnuplot::set_multiplot"]}
{"id": "C129", "title": "Data given to a gnuplot session reach a file of their own; 63 per process", "statement": "plot_x, plot_xy, plot_xy_err and plot_xyz on an open session write one new temporary file whose line i holds the i-th entries of the given vectors in their order, and leave all other files and sessions alone; vectors that are empty or of different lengths make them throw before any file is made; plot_image writes for every pixel its column, its row and the value at row times width plus column, and reads beyond a buffer shorter than the picture. In a process that never calls remove_tmpfiles these calls succeed exactly while fewer than 63 temporary files were made by all its sessions together: closing a session frees nothing, so after 63 sessions with one plot each, all closed, a new session's first plot throws. remove_tmpfiles, called once per session after its last plot, deletes exactly the files of those sessions and brings the count back to the number of files left; called twice on a session it takes that session's files off the count twice, which may then be negative.", "quantifier": "every process history of opened and closed sessions, plots, images and removals, every data and every scheme of distinct file names", "why_tests_cant": "Tests plot a few curves in one session and never reach the limit; the count over all histories is an invariant.", "anchors": ["subprojects/ufjfmltk-visual/src/gnuplot_i.cpp:Gnuplot::create_tmpfile", "subprojects/ufjfmltk-visual/src/gnuplot_i.cpp:Gnuplot::remove_tmpfiles", "subprojects/ufjfmltk-visual/src/gnuplot_i.cpp:Gnuplot::plot_image", "subprojects/ufjfmltk-visual/include/ufjfmltk/visual/gnuplot_i.hpp:Gnuplot::plot_xy", "subprojects/ufjfmltk-visual/include/ufjfmltk/visual/gnuplot_i.hpp:Gnuplot::plot_xyz"]}
{"id": "C130", "title": "gnuplot is looked for in the configured directory, then along PATH", "statement": "Opening a session uses the gnuplot of the configured directory when it can be executed, else that of the first directory of PATH (entries between colons; empty entries are skipped) that has one, which is then the configured directory; when none has one, or PATH is not set, it throws and the configured directory stays. stringtok returns exactly the non-empty entries, in order, however many delimiters stand before, between and after them. set_GNUPlotPath with a directory that has an executable gnuplot makes that the one used, whatever PATH is; with one that has none it does not keep the directory configured before: that one is forgotten, and a session that could be opened before may not be opened any more.", "quantifier": "every file system, PATH, configured directory and text", "why_tests_cant": "A test runs on one machine with one PATH.", "anchors": ["subprojects/ufjfmltk-visual/src/gnuplot_i.cpp:Gnuplot::get_program_path", "subprojects/ufjfmltk-visual/src/gnuplot_i.cpp:Gnuplot::set_GNUPlotPath", "subprojects/ufjfmltk-visual/include/ufjfmltk/visual/gnuplot_i.hpp:stringtok"]}
{"id": "C131", "title": "What a fixed-margin IMA classifier answers on its own", "statement": "A fixed-margin IMA object built by a caller with a dataset and a margin gamma, whose not-first-dimension flag was set, trains without error; when train() answers true every training point has y(w.x+b) > gamma*norm - alpha*flexibility, and with zero flexibility every training point of a two-class dataset is then given its own label by evaluate(), which compares w.x+b with 0 because the object's margin is never set, and answers 0 for a point of another dimension. The stored norm stays the norm of the weights for every norm but L1 if it was so at the start; an initial solution whose norm is 0 is accepted whatever gamma is. If the flag was not set, training on a non-empty dataset reads an uninitialised variable.", "quantifier": "every rectangular dataset, norm, margin, flexibility, update limit, initial solution and clock", "why_tests_cant": "the flag and the norm only go wrong for call orders that the wrapping IMAp class never uses; the guarantee is over all datasets", "anchors": ["IMA.hpp:IMApFixedMargin"]}
{"id": "C132", "title": "Text, selection and comparison of points", "statement": "Writing a point with at least one coordinate prints its id when positive, then its coordinates and its label (when it has one) separated by commas in brackets, and two points with one text have the same printed id and the same printed entries; a dataset prints one such line per point. A point without coordinates, alone or in a dataset, is read out of bounds. A point without label prints like a shorter point whose label is its last coordinate. Selecting features gives the coordinates at those positions in ascending order, with label, id and alpha, whatever the order they were named in, and stops for a position outside. Two points are equal exactly when their coordinates are, whatever label, id and alpha. erase(b, e) removes exactly the coordinates from b up to but without e.", "quantifier": "every point, dataset, list of positions and range", "why_tests_cant": "the printing goes wrong only for empty points; the rest is a claim over all points", "anchors": ["Point.hpp:operator<<", "Point.hpp:selectFeatures", "Point.hpp:operator==", "Point.hpp:erase", "Data.hpp:operator<<"]}
{"id": "C133", "title": "Randomly initialised points", "statement": "random_init gives a point of the size asked for (or the size the point had), with values in the range and label 0, keeping id and alpha. With a seed other than 0 and other than the one in force the values are those of the seed, whatever was drawn before; so two calls with one seed give the same values when a call with another seed came in between. Two calls in a row with one seed do not: the second continues the sequence, and the two are the parts of one longer point.", "quantifier": "every generator, seed, size, point and state of the generator", "why_tests_cant": "a test of reproducibility that restarts the program, or one call per seed, never sees the second call continue", "anchors": ["Point.hpp:random_init", "Random.cpp:init"]}
{"id": "C134", "title": "A kernel matrix given from outside", "statement": "After any sequence of compute, setType, setParam, recompute and setKernelMatrix calls on a kernel object, its matrix is either the last one given or the one computed, with the type and parameter in force then, from the dataset of the last compute() that came with no compute() before it since the last setType, setParam or recompute. So a matrix given after a compute() stays for all later datasets, while the matrix an object was built from, or that was given before the first compute(), is replaced by that compute(). operator[] gives a row and stops outside; the call on two points gives the kernel value for points of one size and stops for others; a custom kernel without function stops.", "quantifier": "every sequence of calls, dataset, type, parameter and matrix", "why_tests_cant": "which matrix is used depends on the whole history of calls", "anchors": ["Kernel.hpp:setKernelMatrix", "Kernel.hpp:compute", "Kernel.hpp:operator()"]}
{"id": "C135", "title": "The variance of a clustering", "statement": "clusters_variance of clusters of positions of a dataset is the sum over the clusters of the squared Euclidean distances of their members to their mean. No other choice of centres costs less; splitting a cluster never raises it; the order of the clusters and of their members does not matter and empty clusters count nothing, although their mean is not a number; it is never negative, and 0 exactly when the members of each cluster coincide. A position outside the dataset is read out of bounds.", "quantifier": "every rectangular dataset, every list of clusters and of centres", "why_tests_cant": "minimality and the invariances quantify over all centres and clusterings; an empty cluster divides by zero unseen", "anchors": ["KMeans.hpp:clusters_variance"]}
{"id": "C136", "title": "Double precision: the decision value of a linear classifier", "statement": "evaluate() of the linear classifiers computes bias + sum w[i] x[i] in IEEE double precision, left to right. For finite numbers whose terms have absolute values adding up to at most 2^1020, and fewer than 2^52 features, the computed value is finite and differs from the exact one by at most 2 (n + 1) 2^-53 times that sum plus n 2^-1074; so the returned class is that of exact arithmetic whenever the exact value is further from 0 than this. When all the numbers are integers and the absolute terms add up to less than 2^53 the value and the class are exact. Outside these guards the answer may differ: the same terms in another feature order may give the other class, and a coordinate or weight that is not a number, or an infinite coordinate with weight 0, always gives class -1.", "quantifier": "all dimensions, weights, biases and points of binary64 numbers, infinities and not-a-number included", "why_tests_cant": "Rounding errors and their effect on the class depend on all the bits of all the coordinates; a test tries a handful of values, most of them small integers for which nothing is rounded", "anchors": ["subprojects/ufjfmltk-classifier/include/ufjfmltk/classifier/PrimalClassifier.hpp: PrimalClassifier::evaluate", "subprojects/ufjfmltk-classifier/include/ufjfmltk/classifier/Perceptron.hpp: PerceptronPrimal::train"]}
{"id": "C137", "title": "Double precision: what the answer of the perceptron means", "statement": "With the numbers being IEEE doubles, when PerceptronPrimal::train() answers true, having had time to start, evaluate() gives every training point its own label, except points whose decision value is not a number, which are given -1; nothing is assumed about the data, the rate or rounding. The exception is real: on data whose points all have an infinite or not-a-number coordinate, training from scratch answers true after one pass with all weights 0 and evaluate() gives every point -1.", "quantifier": "all datasets of binary64 numbers with labels 1 and -1, visiting orders, rates, limits, starting weights and clocks", "why_tests_cant": "The claim is about every reachable rounding of every run; tests train a few small data sets", "anchors": ["subprojects/ufjfmltk-classifier/include/ufjfmltk/classifier/Perceptron.hpp: PerceptronPrimal::train", "subprojects/ufjfmltk-classifier/include/ufjfmltk/classifier/PrimalClassifier.hpp: PrimalClassifier::evaluate"]}
{"id": "C138", "title": "Double precision: training on integers is exact and converges", "statement": "When all coordinates are integers of absolute value at most M, the rate is an integer r and (MAX_UP + number of points) r (1 + dim M^2) is below 2^53, PerceptronPrimal::train() from scratch in IEEE doubles makes exactly the updates of exact arithmetic and ends with the same weights, bias, counters and answer. Hence on such data separable with margin g by a hyperplane (u, b), given time and limits for B updates with B g^2 at least r2 (|u|^2 + b^2), where r2 bounds |x|^2 + 1, train() answers true within B updates and evaluate() gives every training point its label.", "quantifier": "all integer datasets, rates, limits, clocks, visiting orders and separating hyperplanes within the bound", "why_tests_cant": "Convergence within the bound and absence of rounding over a whole training run quantify over all data sets and all runs; a test sees some runs end", "anchors": ["subprojects/ufjfmltk-classifier/include/ufjfmltk/classifier/Perceptron.hpp: PerceptronPrimal::train", "subprojects/ufjfmltk-classifier/include/ufjfmltk/classifier/PrimalClassifier.hpp: PrimalClassifier::evaluate"]}
{"id": "C139", "title": "Fixed-margin trainers: one update is a gradient step", "statement": "When PerceptronFixedMarginPrimal or the incremental margin trainer meets a point (x, y) that violates the margin, each weight that is not 0 moves by rate (y x_j - gamma dN/dw_j), where N is the norm of the weights in the chosen formulation (sum of absolute values for q = 1, Euclidean for q = 2, the q-norm for other positive q), a weight that is 0 moves by rate y x_j, and the stored norm is N of the new weights. In the formulation with q = -1 (largest absolute weight) the pull gamma sign(w_j) / n is applied exactly to the weights within the relative tolerance of the largest size kept; the stored norm is the old size of the first weight or the new size of another weight, and up to the tolerance it bounds the new sizes of all weights but the first.", "quantifier": "all dimensions, weights, points, labels, rates, gammas and q", "why_tests_cant": "The claim is about derivatives and all real weight vectors; tests look at the answers of a few trainings", "anchors": ["subprojects/ufjfmltk-classifier/include/ufjfmltk/classifier/Perceptron.hpp: PerceptronFixedMarginPrimal::train", "subprojects/ufjfmltk-classifier/include/ufjfmltk/classifier/IMA.hpp: IMApFixedMargin::train"]}
{"id": "C140", "title": "IMA: learning rates and support vectors", "statement": "After IMAp::train() on non-empty data the support vectors are exactly the points whose alpha exceeds eps times the learning rate after the last successful call of the inner trainer. That rate is 1 up to the second successful call, and then sqrt(t / c), with t and c the update counts after the third and after the last one; it is always in (0, 1]. So every support vector has a positive alpha, every point with alpha above eps is a support vector, and when at most three margins were reported there are no others.", "quantifier": "all non-empty datasets, formulations, limits, clocks and flexibilities", "why_tests_cant": "The number of inner calls and their update counts depend on the whole run; a test can check the list of one run but not the rule", "anchors": ["subprojects/ufjfmltk-classifier/include/ufjfmltk/classifier/IMA.hpp: IMAp::train"]}
{"id": "C141", "title": "Perceptron: training again on data of another dimension", "statement": "Training keeps the weights the object already has. With weights of the dimension of the data, or none, it is as C38 says. An object trained before on data with fewer features makes the program stop on a failed assertion at the first point; one trained on data with more features is trained on its first weights only, keeps all of them, and evaluate() then answers 0, no class, for every training point.", "quantifier": "all datasets, earlier weights of another length, rates, limits and clocks", "why_tests_cant": "A test trains an object once, or twice on the same data", "anchors": ["subprojects/ufjfmltk-classifier/include/ufjfmltk/classifier/Perceptron.hpp: PerceptronPrimal::train", "subprojects/ufjfmltk-classifier/include/ufjfmltk/classifier/PrimalClassifier.hpp: PrimalClassifier::evaluate", "include/ufjfmltk/core/Point.hpp: Point::operator[]"]}
{"id": "C142", "title": "Automatic weighting: training is defined and keeps valid weights", "statement": "AutoWeightedVoting::train, with at least one member (two if the weights are projected) whose answers are classes of the training part, never fails an assertion or leaves defined behaviour once the samples are split: it returns or goes on drawing parents. Every weight vector of the population has one weight per member at the end; in the projected mode all weights are numbers and none is negative. With a single member in the projected mode, or no member, it stops on a failed assertion.", "quantifier": "all datasets, splits, members, draws, population sizes, numbers of generations and both weight modes", "why_tests_cant": "Not-a-number weights and the sort over them depend on the draws; a test sees a few runs", "anchors": ["subprojects/ufjfmltk-ensemble/include/ufjfmltk/ensemble/AutoWeightedVoting.hpp: train, new_sample, simplex_projection, get_best_solution"]}
{"id": "C143", "title": "Distances in double precision", "statement": "Computed in double precision on finite coordinates, the Euclidean, Manhattan and Chebyshev distances are symmetric to the bit, never NaN and never negative; the Manhattan distance is 0 exactly between equal points. Short of overflow the Manhattan distance has a relative error of at most n + 1 roundings, and the square of the Euclidean distance of at most n + 5 when every difference is 0 or at least 2^-500, so points whose exact distances differ by more than that are ordered correctly. The Chebyshev distance is the largest rounded difference but at least 2^-1022, also from a point to itself. Differences up to 2^-538 give Euclidean distance 0 between different points, finite points can be at infinite distance, and the triangle inequality can fail by a rounding.", "quantifier": "all finite double-precision points of every dimension", "why_tests_cant": "The tests compare a few distances with expected decimals; the rounding errors depend on all the coordinates", "anchors": ["subprojects/ufjfmltk-core/include/ufjfmltk/core/DistanceMetric.hpp: Euclidean, Manhattan, Chebyshev", "subprojects/ufjfmltk-core/include/ufjfmltk/core/Point.hpp: sum, max", "subprojects/ufjfmltk-core/include/ufjfmltk/core/ExprOps.hpp: SUB, A_Pow"]}
{"id": "C144", "title": "Starting centres of k-means", "statement": "With kmeanspp the centres are the points at uniformly drawn positions, as with random: the distances are turned into weights that are never used, so the point just chosen, of weight 0, can be drawn again; when all points coincide with the first centre the weights are not numbers, and a draw of the upper bound reads past the last point. Asked for no cluster, kmeanspp writes to a centre that does not exist. Training from a start with a repeated position ends its first round with a centre that is not a number. Any other initialisation text leaves the centres at the origin: with two clusters or more the same happens, with one cluster the first round computes the true mean of the data.", "quantifier": "all datasets, metrics, draws, numbers of clusters, clocks and tolerances", "why_tests_cant": "Draws are random and a wrong distribution looks like any other sample", "anchors": ["subprojects/ufjfmltk-clusterer/include/ufjfmltk/clusterer/KMeans.hpp: KMeans::train", "subprojects/ufjfmltk-clusterer/include/ufjfmltk/clusterer/KMeans.hpp: KMeans::assign_clusters"]}
{"id": "C145", "title": "Error, F-score and printing of a report", "statement": "In the report of metricsReport the F-score is 2 tp / (2 tp + fp + fn) when there is a true positive and not a number otherwise; errors is the number of wrong answers, but error is (errors + tn) / size, so correctly rejected samples count as errors. A report of classificationReport always has error 0 and no errors, and its F-score is 1, 0 or not a number. print() shows the same number as Precision, Recall and F1-score; for two classes with the second one positive it is the recall.", "quantifier": "all datasets, models, matrices and lists of positive labels", "why_tests_cant": "Every field is a formula over unbounded counts; a test fixes a few of them", "anchors": ["subprojects/ufjfmltk-valid/include/ufjfmltk/valid/Validation.hpp: metricsReport", "subprojects/ufjfmltk-valid/include/ufjfmltk/valid/Validation.hpp: classificationReport", "subprojects/ufjfmltk-valid/include/ufjfmltk/valid/Validation.hpp: ValidationReport::print"]}
{"id": "C146", "title": "Real labels are read from files", "statement": "A dataset read as \"Regression\" has, for every line of the file, the features and the real label written there: .csv files keep them, with the label in the first or the last column. An .arff file loses every label. A .data file keeps its labels when they stand at the end of the lines and the second one is written with a point; otherwise they are cut to whole numbers, and in every case the dataset says afterwards that it is one of classification.", "quantifier": "all tables of numbers written as text, all numbers of rows and columns, both places of the label, all types asked for beforehand", "why_tests_cant": "the type is guessed from one item of the second line, so a test with one layout and labels such as 2.5 passes while the same numbers in another layout are cut without a message", "anchors": ["subprojects/ufjfmltk-core/include/ufjfmltk/core/Data.hpp: Data::load_csv, load_data, load_arff, isClassification"]}
{"id": "C147", "title": "The other rankings and the other choice of AOS", "statement": "On a well-formed dataset labelled 1 and -1, both present, the sort of the features in AOS compares: for sorting shape 2 the absolute weight over the distance of the class means without the feature, for 4 the weight times the radius without it, for 3 their combination, for 6 the weight times the squared difference of the class means over the sum of the two scatters, and for any other value the absolute weight; on values that are numbers the comparison is a strict weak order and what the sort leaves is in decreasing order. What is not guaranteed: shape 5, meant as Golub's score, does not depend on either mean: it is the weight times sqrt(v - 1), v the variance of the class -1, and not a number unless the variances of both classes exceed 1 (that of -1 may be 1), hence never one for a feature scaled to an interval of length 1. With one value that is not a number and two others that differ the comparison is not a strict weak order, so std::sort is undefined. With choice shape 2 and a sorting shape other than 2 and 3 the value of a child, its projected margin times the distance, is minus that margin: for weights other than 0, a margin other than 0 and g_margin at least 0, only the first child of a node enters the queue, whatever the breadth. With any other choice the children are those of C114, and with one child per node, trainings that succeed and values that are numbers, selectFeatures with any sorting shape is an elimination: train, take away a feature of the greatest value, and so on.", "quantifier": "datasets with labels 1 and -1, features, weights, sorting shapes and choices, nodes and queues of any size", "why_tests_cant": "the existing tests run the shapes on one dataset and look at the dimension of the result only; that a score is independent of the means, or undefined for scaled data, concerns all datasets", "anchors": ["subprojects/ufjfmltk-featselect/include/ufjfmltk/featselect/AOS.hpp: AOS::mainLoop, setSortingShape, setChoiceShape"]}
{"id": "C148", "title": "The remainder of a point and a number is the truncated one", "statement": "For an integer point and an integer modulus other than 0, every coordinate of `p % m` differs from the coordinate of p by a multiple of m, is smaller than m in absolute value and has the sign of the coordinate of p, so it is negative for every negative coordinate that is not a multiple and `%` does not map into [0, m). A modulus of 0 is undefined behaviour for every non-empty integer point, as is -1 with the least int. For a double point the same holds with the remainder of fmod, and a modulus of 0 gives coordinates that are not numbers. For an integer point and a double modulus the remainder is cut to an int: it is less than 1 off, and need not be a remainder (2 % 1.5 is 0).", "quantifier": "all points of every dimension and all moduli of the combinations of element types that compile", "why_tests_cant": "Tests use positive coordinates and moduli, for which every notion of remainder agrees.", "anchors": ["subprojects/ufjfmltk-core/include/ufjfmltk/core/Point.hpp: operator%(Point, T), operator%(Point, Y)", "subprojects/ufjfmltk-core/include/ufjfmltk/core/ExprOps.hpp: A_Mod and its specialisations"]}
{"id": "C149", "title": "Norms and normalisation of points", "statement": "For every integer n of at least 1, norm(x, n) is the n-norm of x: it is 0 exactly for zero points, norm(c x) = |c| norm(x), norm(x + y) is at most norm(x) + norm(y), it does not increase with n and is never below the absolute value of a coordinate. norm(x, NORM_LINF) is the largest absolute value when that is at least the smallest normal double, and otherwise that double: the zero point has a positive norm. With a negative order every point with a zero coordinate has norm 0. normalize(x, q) scales a double point other than zero to q-norm 1 for every q > 0, and leaves the zero point without numbers; given a vector it overwrites the vector with the result. An int point with two or more coordinates other than 0 is normalised to the zero point, and the zero int point is undefined behaviour.", "quantifier": "all points of every dimension, all orders, all q > 0", "why_tests_cant": "The triangle inequality and the order of the norms are statements about all real vectors and all n.", "anchors": ["subprojects/ufjfmltk-core/include/ufjfmltk/core/Point.hpp: Point::norm, norm(Point, int), normalize(Point, double), normalize(std::vector, double), max, abs, pow"]}
{"id": "C150", "title": "Statistics of integer points", "statement": "For an int point whose coordinates are small enough not to overflow: when their sum is not negative, mean is the mean rounded down, var a whole number less than 1 off the variance, std_dev its square root, and covar exceeds the covariance by less than n/(n-1). When the sum is negative the mean reported is above 2^31, because the sum is divided as an unsigned number, and var, std_dev and covar are undefined behaviour. The variance of every point of zeros and ones is reported as 0. The empty point stops, as do points of different dimensions in covar.", "quantifier": "all int points of every dimension (below 2^32), with coordinates bounded so that no sum of products overflows", "why_tests_cant": "Tests use real vectors; the loss for ints depends on divisibility and on the sign of the sum.", "anchors": ["subprojects/ufjfmltk-core/include/ufjfmltk/core/Statistics.hpp: mean(Point), var(Point), std_dev(Point), covar", "subprojects/ufjfmltk-core/include/ufjfmltk/core/Point.hpp: Point::sum, operator-(Point, int)"]}
{"id": "C151", "title": "Integer points and a double", "statement": "For an int point p and a double s: p + s, p * s, p += s, p *= s, p -= s and p /= s compute with s and cut each coordinate towards zero, so each is less than 1 off (when the results are ints). p - s and p / s cut s itself first: for 0 < s < 1, p - s leaves p as it is where p -= s takes 1 off every positive coordinate; p / s is undefined behaviour for every s between -1 and 1 and every non-empty point, and leaves p as it is for 1 <= s < 2. For a whole number s all of them are the operations of the integers, division cutting towards zero.", "quantifier": "all int points and all doubles within the range of int", "why_tests_cant": "Tests of the operators use double points, for which the two forms agree.", "anchors": ["subprojects/ufjfmltk-core/include/ufjfmltk/core/Point.hpp: operator+, operator-, operator*, operator/ of a point and a number, operator+=, operator-=, operator*=, operator/= with a number"]}
{"id": "C152", "title": "Batch evaluation is evaluation point by point", "statement": "Evaluating a dataset in a batch gives as many answers as there are points, the i-th being what evaluate answers for the i-th point when the points are evaluated one after the other in the order of the dataset; for a learner that does not change when asked, it does not depend on the other points. The batch of probabilities, however, returns integers: every probability below 1 is lost and comes back as 0, only certain points give 1, and since no classifier of the library provides probabilities the answer is always zeros.", "quantifier": "all learners and their states, also those that change when asked, all datasets and all probabilities from 0 to 1", "why_tests_cant": "tests evaluate a few datasets with a few learners and never look at the probabilities", "anchors": ["subprojects/ufjfmltk-core/include/ufjfmltk/core/Learner.hpp:batchEvaluate", "subprojects/ufjfmltk-classifier/include/ufjfmltk/classifier/Classifier.hpp:batchEvaluateProbability, evaluateProbability"]}
