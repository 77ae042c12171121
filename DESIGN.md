# Formal model of UFJF-MLTK in Rocq: design

## 1. Approach

* The C++ sources in `/repo` are read as text; nothing is compiled or run. Each modelled function becomes a total, computable Gallina
  function (or, for threads, random numbers, clocks and the pointer list, a small-step relation or an oracle argument).
  Each definition carries a comment citing file and lines.
* `Base.outcome`: `Ok a | UB | Abort`. `UB` = out-of-range element access, read of an uninitialised variable,
  use of an invalidated iterator, integer division by zero, signed overflow, null dereference. `Abort` = failed `assert`, `exit(1)`,
  or an uncaught exception. No default value hides such a case: `nth_error` is used, never `nth` with a default,
  in model code where the index could be out of range.
* Numbers: features are a type parameter where the code only moves them around, and the reals `R` where the code
  computes with them (a value that would be NaN or infinite is `None`; floating-point rounding is **not** modelled there). C136-C138
  treat rounding: `M_F64.v` has the decision function and the primal perceptron over IEEE binary64 numbers (Flocq), assuming round to nearest even and no contraction of `a*b+c` into one operation. Labels of
  classification datasets are `Z` (the code stores them in `double` and converts to `int`). `size_t` counters that can wrap are modelled modulo 2^64.
* Nondeterminism: `std::shuffle` = any permutation of positions; `nth_element` and `sort` = any permutation with its
  postcondition; `stable_sort` = stable insertion sort; random draws = an arbitrary stream; the clock = arbitrary booleans.
* Loops that the code ends by a condition that may never hold carry fuel; running out of it is a separate answer
  and never counts as a result.
* A property the code violates gets a `..._refuted` theorem, and beside it the positive theorem under
  the exact guard that makes it true. The statement of the property in `properties.jsonl` says both.

## 2. File layout (`rocq/theories`)

* `Base.v`, `ListLib.v`, `L_Vec.v`, `Loop.v` : outcome monad and generic lemmas on lists, sums and loops.
* `M_*.v` : models of the code (definitions with citations, no theorems).
* `S_*.v` : small specifications (definitions used to state properties, independent of the model's helpers).
* `L_*.v` : lemmas.
* `T_*.v` : the lemmas that prove the properties, and their examples.
* `P_*.v` : the property theorems and nothing else: each is closed by `exact` the lemma of the same name in `T_*.v`, with
  `Print Assumptions` beneath and an example that meets its hypotheses.

`seeded/LOG.jsonl` records the wrong programs the theorems were tested against (each edit made to a copy of the model, with the theorems that then fail).

## 3. What is modelled

The file-wide conventions and simplifications are repeated here from the head of each model file; every definition in a model file has its own citation and, where it simplifies, says so.

* **M_Aos.v** (14 definitions). Model of the admissible ordered search: ufjfmltk-featselect/include/ufjfmltk/featselect/AOS.hpp, over the reals, with choice_shape 1, look_ahead_depth 0, q = 2 and no cross-validation (the defaults of its constructor), and the kernel type INNER_PRODUCT, which nothing changes. The queue and the table of visited nodes are those of M_Pq.v. std::sort of the weights is an oracle, which may look at the sample (what it compares is in M_AosRank.v), and so is the classifier: what the n-th training on a sample answers, with the weights and the margin it leaves in its solution. The classifier is assumed to leave the sample as it is. Messages, times and the counters that are only printed are left out. Only the sums of squares are exact reals here.
* **M_AosRank.v** (14 definitions). Models of the ranking of the features in AOS and of its other choice: ufjfmltk-featselect/include/ufjfmltk/featselect/AOS.hpp, over the reals. A value is [None] when it is not a finite number.
* **M_Awv.v** (26 definitions). Model of the training of AutoWeightedVoting: ufjfmltk-ensemble/include/ufjfmltk/ensemble/AutoWeightedVoting.hpp:73-252, over the reals. Simplifications: a weight that is not a number (0/0) is [None], comparisons with it are false; the members are the function [fit]: [fit i tr p] is the answer of member i, trained on [tr], for point p; the generator is given by [rr] and [ri]: draw t is [rr t] from [0,1) or [ri t b] from 0..b; the population size, 1000 in the code without a way to change it, is the argument [np]; F = 0.8 and CR = 0.9; the console output is left out. [None] as a result: still looking for parents after [fuel] draws.
* **M_Bag.v** (6 definitions). Model of the training of BaggingClassifier: ufjfmltk-ensemble/include/ufjfmltk/ensemble/BaggingClassifier.hpp:18-53, on the heap of shared points (M_Heap, M_Sampling). Simplifications: [gen s] is the random stream of a generator seeded by [s], [devs] are the numbers std::random_device gives, in order; seeds are natural numbers without wraparound; a trained member is the function [fit]: [fit s v p] is the answer for point p of a copy of the estimator with seed s trained on v; the object was built by the second constructor, so that there are n_estimators members.
* **M_Balanced.v** (9 definitions). Model of BalancedPerceptron (ufjfmltk-classifier/include/ufjfmltk/classifier/Perceptron.hpp:79-155), over the reals. Simplifications: the weights drawn by random_init (Point.hpp:565-575) and the permutation of shuffle are arguments; the clock is an oracle ([late e]: the time is over after epoch [e]); DBL_MAX is the parameter [big]; the counters are natural numbers; the points' label is an integer.
* **M_Batch.v** (5 definitions). Model of the evaluation of whole datasets: ufjfmltk-core/include/ufjfmltk/core/Learner.hpp:217-224 and ufjfmltk-classifier/include/ufjfmltk/classifier/Classifier.hpp:42, 82-89. The learner is a state and its evaluation, which may change the state; std::transform goes from front to back.
* **M_Border.v** (7 definitions). Model of BorderlineSMOTEOne: ufjfmltk-core/include/ufjfmltk/core/Sampling.hpp:210-295, over the reals, on the heap of shared points (M_Heap.v). [dist] is the metric of the object, [dist2] the one of the SMOTE it makes (281: always the default one); std::sort, the fractions and the shuffle of SMOTE are oracles as in M_Smote.v. The pointers of the dataset are what 236-291 go through; [view] is what is read through them.
* **M_Copies.v** (32 definitions). Model of the kernel objects held by the dual classifiers (SMO, PerceptronDual, IMADual): who allocates one, who deletes it, what a copy of a classifier shares with the original, and which kernel matrix a training sees. ufjfmltk-classifier/include/ufjfmltk/classifier/{DualClassifier,SMO,Perceptron,IMA,OneVsOne,OneVsAll}.hpp. Kernel objects live in a heap that is never compacted: an address is a position, [None] is a deleted object, and every [new] takes the next position. Using or deleting a deleted object, using a null pointer, and using a destroyed classifier are [UB]. Simplifications: the numbers a training computes are an arbitrary function [slv] of the kind of classifier, the kernel matrix, the samples and what the object kept from before (the algorithms are modelled in M_Perc, M_Smo and M_Imad), but its reads of the matrix are kept; the time limit allows at least one pass. The samples are values: the alphas a training leaves in the points are not seen by the kernel. setKernel, by which the user hands over a pointer of their own, is left out, and so are the H matrices of the weights reported for a kernel that is not linear (M_Kernel, C31).
* **M_Data.v** (56 definitions). Model of mltk::Data<T> (ufjfmltk-core/include/ufjfmltk/core/Data.hpp), function by function. Conventions and simplifications (file-wide):  - [T], the feature type, is a parameter; [Alpha] (a double) is stored in the same type.  - the label [Y] (a double) is an integer [Z] here: classification data with integral labels.  - ids are [Z] (size_t in the code; never negative in the code).  - a shared_ptr<Point> is modelled by the point's value; sharing is modelled separately in M_Heap.v.  - console output, dataset_name, time_mult, pos_class, neg_class and atEnd are not modelled here.  - [type] is reduced to the answer of isClassification() (Data.hpp:198).
* **M_Dll.v** (20 definitions). Model of the doubly linked list of ints: ufjfmltk-classifier/src/int_dll.cpp and int_dll.h. The heap maps addresses to nodes; following a pointer to a node that is not allocated (never, or no longer) is undefined behaviour. [new] returns the address [brk], which is never handed out again, so a dangling pointer is always noticed.
* **M_Dsm.v** (15 definitions). Model of DSM: ufjfmltk-core/include/ufjfmltk/core/Sampling.hpp:10-77, over the reals. A value that is not a number is [None]; comparing with it is false. The counters are unbounded; a subspace is a vector of size_t, here of integers.
* **M_Dtoa.v** (9 definitions). Model of utils::dtoa, ufjfmltk-core/src/Utils.cpp:94-166. A finite double is a rational; the arithmetic of the function (log10, pow, division, subtraction) is exact, its rounding in double precision is left out.
* **M_Ens.v** (23 definitions). Model of the ensembles: ufjfmltk-ensemble/include/ufjfmltk/ensemble/{VotingClassifier,PerceptronCommittee,BaggingClassifier, AdaBoostClassifier,AutoWeightedVoting}.hpp. The answers of the members are inputs ([preds], [good]); classes and answers are integers. A number that is not real (log 0, 0/0) ends the modelled run with [None].
* **M_Eq.v** (15 definitions). Model of dataset comparison, assignment and of the views of a dataset: ufjfmltk-core/include/ufjfmltk/core/Data.hpp:1550-1585, 1704-1723, 1769-1808, 2106-2139. [eqb] is the comparison of two feature values. time_mult is never set anywhere in the library, so it takes no part.
* **M_F64.v** (14 definitions). Model, in IEEE 754 double precision, of the decision function and of the training of the primal perceptron. ufjfmltk-classifier/include/ufjfmltk/classifier/PrimalClassifier.hpp:42-57 and Perceptron.hpp:178-230 of the same directory; M_Perc.v has the same functions over the reals. The numbers are the binary64 numbers of the Flocq library (infinities, signed zeros and one not-a-number included); every operation rounds to nearest, ties to even, and the compiler is assumed not to contract a product and a sum into one operation. Labels are integers, converted to double.
* **M_F64d.v** (9 definitions). Model, in IEEE 754 double precision, of three distances: ufjfmltk-core/include/ufjfmltk/core/DistanceMetric.hpp:28-66, as M_F64.v models the decision function. M_Point.v has the same functions over the reals. std::pow(x, 2) is taken to be the rounded product of x with itself.
* **M_Fixed.v** (21 definitions). Models of PerceptronFixedMarginPrimal and PerceptronFixedMarginDual (ufjfmltk-classifier/include/ufjfmltk/classifier/Perceptron.hpp:233-374 and 466-552), over the reals. Simplifications as in M_Perc: the clock is an oracle, the counters are natural numbers. The alphas of the points are kept in a vector, by position. std::pow is the parameter [pw]. The primal trainer's vector func (written and read at the same position only) is left out.
* **M_Folders.v** (14 definitions). Model of the plot folders of Visualization: which folders an object makes, and which it deletes. ufjfmltk-visual/include/ufjfmltk/visual/Visualization.hpp. The folders "plottemp<N>/" are known by their number N, what a folder holds is an arbitrary value. The static counter n_plots is one per element type, so it is kept per type. Folders renamed by keep_temp_files have the number and the time stamp in their name (to the second; Utils.cpp:212-219). Simplifications: creating, writing and deleting succeed; renaming fails when the source is missing or the target is there (the saved folders are not empty); closedir on a folder that could not be opened returns an error, as in glibc (line 480); numbers do not wrap around. The files in a folder and the titles of the plots are in M_Plot.v.
* **M_Fs.v** (9 definitions). Models of the feature selection: ufjfmltk-featselect/include/ufjfmltk/featselect/{Golub,Fisher,RFE}.hpp, over the reals. std::sort is an oracle. The classifier is an oracle too: what the n-th training returns. It is assumed to leave the dataset as it is. Messages, times and the verbose level are left out.
* **M_Gen.v** (13 definitions). Models of RSM (ufjfmltk-core/include/ufjfmltk/core/Sampling.hpp:80-104) and of the artificial datasets (ufjfmltk-core/src/Datasets.cpp), over the reals. Random draws are streams of numbers; std::shuffle is a list of positions. The number of classes or centers is a natural number: a negative one is not modelled. Names of datasets are left out.
* **M_Gp.v** (21 definitions). Model of the gnuplot session class: the commands it sends, and the two members it keeps to choose between "plot", "splot" and "replot". ufjfmltk-visual/src/gnuplot_i.cpp, ufjfmltk-visual/include/ufjfmltk/visual/gnuplot_i.hpp. Texts are lists of characters. Numbers given to a call (slopes, ranges, columns) are the texts the stream writes for them. A session object only exists when init succeeded, so the member valid is true and left out. The pipe is the list of the commands sent, without their ends of line.
* **M_GpFiles.v** (16 definitions). Model of the temporary files of the gnuplot sessions of a process, and of the search for the gnuplot program. ufjfmltk-visual/include/ufjfmltk/visual/gnuplot_i.hpp, ufjfmltk-visual/src/gnuplot_i.cpp. Numbers are the texts the stream writes for them. A file is its lines, a line its numbers. mkstemp is an oracle: [nm n] is the name of the [n]-th temporary file made. Failures of mkstemp and of opening the file are left out.
* **M_Heap.v** (17 definitions). Sharing of points: mltk::Data holds shared_ptr<Point>; here a dataset is a list of addresses into a heap of points plus its other members. ufjfmltk-core/include/ufjfmltk/core/Data.hpp. The members other than the points are computed by the value-level functions of M_Data on what the dataset reads from the heap; this file adds which pointers are kept, shared or fresh and which points are written in place. Points are never freed.
* **M_Hist.v** (5 definitions). Histories of operations on one dataset: the public mutators of mltk::Data, as a step function.
* **M_Ima.v** (13 definitions). Model of the incremental margin algorithm IMAp and of IMApFixedMargin (ufjfmltk-classifier/include/ufjfmltk/classifier/IMA.hpp:115-503), over the reals. Simplifications: as in M_Fixed, whose coordinate loops are the same text; the clock is an oracle ([clk c k]: test number k of call number c still has time; [stop it]: the total time is over after iteration [it]); DBL_MAX is the parameter [big] and overflow is left out; verbose output is kept only as the list of the printed margins. The learning rate of an empty dataset (0/0 in the code, never used there) is not a number in the code.
* **M_ImaF.v** (9 definitions). Model of IMApFixedMargin as a classifier of its own: constructors, train and evaluate (ufjfmltk-classifier/include/ufjfmltk/classifier/IMA.hpp:53-74, 366-523), over the reals. Simplifications: as in M_Ima, whose pass over the points is used unchanged; the clock is an oracle. flagNao1aDim and tMax have no initialiser, so a flag that was never set through its pointer is [None], and reading it is undefined behaviour.
* **M_Imad.v** (7 definitions). Model of IMADual::train() (ufjfmltk-classifier/include/ufjfmltk/classifier/IMA.hpp:553-707), over the reals. Simplifications: the inner trainer is the loop of M_Fixed (PerceptronFixedMarginDual); its own solution.w, which IMADual never reads, is left out, as are verbose output, the timer's values and the normalisation of a vector that is overwritten by the next statement (IMA.hpp:675-680). The clock is an oracle ([clk c t]: test number t of call number c still has time); DBL_MAX is the parameter [big]; EPS and MIN_INC (Learner.hpp:33-35) are [eps] and [inc]. A dataset has been set (without one the code reads through a null pointer before it tests for it, IMA.hpp:557-566).
* **M_IntArith.v** (8 definitions). Model of the operators of int points with a double: ufjfmltk-core/include/ufjfmltk/core/Point.hpp:371-497, 742-858, evaluated to a new point. Doubles are reals.
* **M_IntStat.v** (7 definitions). Model of the statistics of int points: ufjfmltk-core/include/ufjfmltk/core/Statistics.hpp:101-105, 117-121, 140-144, 176-180 with T = int (M_Stat.v has T = double). The conversion of a 64-bit number to double is exact here; std::pow(x, 2) is.
* **M_Kernel.v** (20 definitions). Model of mltk::Kernel<double> (ufjfmltk-core/include/ufjfmltk/core/Kernel.hpp) over the reals. Simplifications: doubles are reals; std::pow is an arbitrary function [pw] of its two arguments (the theorems that need more say which exponents they use); a custom kernel function is a function of the two points and the parameter and has no side effect; NaN from a root of a negative number is [None].
* **M_KernelSet.v** (6 definitions). Model of giving a kernel object its matrix from outside, and of reading rows. ufjfmltk-core/include/ufjfmltk/core/Kernel.hpp:88, 141-157, 159-175, 338-386, over the reals. The calls themselves are those of M_Kernel.
* **M_KmStart.v** (6 definitions). Model of the choice of the starting centres of k-means: ufjfmltk-clusterer/include/ufjfmltk/clusterer/KMeans.hpp:48-56, 92-138, over the reals. M_Kmeans.v has the random choice and the loop.
* **M_KmVar.v** (3 definitions). Model of the variance of a clustering: ufjfmltk-clusterer/include/ufjfmltk/clusterer/KMeans.hpp:192-209, over the reals. [None] is a value that is not a number: the mean of an empty cluster, if it were read.
* **M_Kmeans.v** (15 definitions). Model of k-means: ufjfmltk-clusterer/include/ufjfmltk/clusterer/KMeans.hpp. The metric is any real function; a centre coordinate that is not a number (division by an empty cluster) ends the modelled run.
* **M_Knn.v** (22 definitions). Model of the nearest-neighbour classifier, the distance matrix and the nearest-neighbour regressor. ufjfmltk-classifier/include/ufjfmltk/classifier/KNNClassifier.hpp, .../ufjfmltk-core/include/ufjfmltk/core/DistanceMatrix.hpp, .../ufjfmltk-regressor/include/ufjfmltk/regressor/KNNRegressor.hpp. The metric is any real function of two points (a metric whose value is not a number is left out).
* **M_Lazy.v** (22 definitions). Model of the lazy point expressions of Point.hpp, ExprOps.hpp, ExprTraits.hpp and ExprScalar.hpp with the references they hold and the lifetimes of what these refer to. (M_Point.v has the same expressions by value.) A place of the memory is the representation of a point (a vector, or an operation with references to the representations of its operands), a vector of indices, or a number; [None]: the object there was destroyed. Numbers are reals, [None] for those that are not (M_Point.v). Not modelled: expressions of several element types, assignments that resize a point (M_Point.v: passign), and expressions indexed by an expression.
* **M_Lines.v** (16 definitions). Model of the lines and planes drawn through the data: ufjfmltk-visual/include/ufjfmltk/visual/Visualization.hpp. Numbers are reals; what a double makes infinite or NaN is [None]. The coefficients are written into the command with utils::dtoa (C126); its rounding is left out. Features are numbered from 0 and not negative.
* **M_Load.v** (32 definitions). Model of reading and writing datasets: Data<T>::process_class, load_csv, load_data and write (load_txt and load_arff are in M_Load2.v) (ufjfmltk-core/include/ufjfmltk/core/Data.hpp). A file is the list of its characters (opening it does not fail). Features are read as rationals (the rounding of atod to double is left out) and written as exact decimals. Only classification data are covered: the label of a regression file is a double, which the integer label of the model cannot hold. Console output, dataset_name, pos_class and neg_class (which do not change the result) are left out.
* **M_Load2.v** (12 definitions). Model of the readers of .arff and .txt files and of load: Data.hpp:628-679, 933-1135 (ufjfmltk-core/include/ufjfmltk/core/Data.hpp). Conventions of M_Load.v: a file is the list of its characters, features are rationals, the dataset is one of classification.
* **M_Look.v** (15 definitions). Model of the look-ahead of the admissible ordered search: ufjfmltk-featselect/include/ufjfmltk/featselect/AOS.hpp:611-625, 846-1011, and of the search with it (M_Aos.v is the search without). choice_shape is 1, the default. The classifier is an oracle as in M_Aos.v; it trains on the samples mainLoop gave it (459). Messages and times are left out.
* **M_Mod.v** (6 definitions). Model of the remainder of a point and a number: ufjfmltk-core/include/ufjfmltk/core/{ExprOps,Point}.hpp, evaluated to a new point (M_Point.v, M_Lazy.v have the laziness). Of the combinations of element types those that compile: int points with an int or a double, and double points with an int (for a double point and a double two specialisations of A_Mod fit and neither is the more special one). Numbers of type double are reals.
* **M_Multi.v** (10 definitions). Model of the multi-class wrappers: ufjfmltk-classifier/include/ufjfmltk/classifier/{OneVsAll,OneVsOne}.hpp, without an over-sampling method. The base learners are inputs: what they answer. There is one base learner per class (or ordered pair of classes) of the samples, as the constructors make them.
* **M_Norm.v** (4 definitions). Model of Data::normalize: ufjfmltk-core/include/ufjfmltk/core/Data.hpp:1645-1667, for real coordinates and p > 0 (std::pow with another exponent is left out).
* **M_PNorm.v** (10 definitions). Model of the norms and the normalisation of points: ufjfmltk-core/include/ufjfmltk/core/Point.hpp:516-519, 650-676. Numbers of type double are reals, and infinite; std::pow is exact.
* **M_PText.v** (7 definitions). Model of printing, selecting, comparing and erasing coordinates of a point, and of printing a dataset. ufjfmltk-core/include/ufjfmltk/core/Point.hpp:217-236, 690-721, ufjfmltk-core/include/ufjfmltk/core/Data.hpp:536-543. The texts a stream writes for a coordinate, a label and an id are parameters; labels are integers as in M_Data, and [low] is -DBL_MAX. The conversion of the size to int (Point.hpp:692) is left out.
* **M_Pcom.v** (3 definitions). Model of the training of PerceptronCommittee: ufjfmltk-ensemble/include/ufjfmltk/ensemble/PerceptronCommittee.hpp:15-46, with members as in M_Balanced. Simplifications as in M_Balanced: for member i the weights drawn are [ws i], the permutation of its shuffle is [perms i], its clock is [late i]. The members are default constructed, with learning rate 0.5 and seed 0 (Learner.hpp:23, 46): the seed of the committee and its parameter epslon are not used. The limits of 10^9 epochs and updates (Learner.hpp:39-40) are the arguments [max_epoch] and [max_up].
* **M_Perc.v** (20 definitions). Model of the perceptrons (ufjfmltk-classifier/include/ufjfmltk/classifier/Perceptron.hpp) and of the evaluation functions of PrimalClassifier.hpp and DualClassifier.hpp, over the reals. Simplifications: doubles are reals; the counters steps and ctot are natural numbers (they are ints bounded by the limits); the clock is an oracle: [clk k] says whether the k-th test of the elapsed time still allows a pass; the local vector func of the primal trainer, written but never read across points, is left out.
* **M_Plot.v** (40 definitions). Model of the files Visualization writes for gnuplot, and of the titles it gives them. ufjfmltk-visual/include/ufjfmltk/visual/Visualization.hpp. One folder is modelled, a file in it is known by its name. A std::ofstream opened on a file empties it and keeps its own writing position (no append mode), so two streams on one file write over each other. A name with a '/' names a file in a folder that is not there and cannot be opened. The text of a number is an arbitrary function [show]. Simplifications: the disk is never full; names are short enough and free of the null character; an operator<< chain that ends a word is one write.
* **M_Point.v** (30 definitions). Model of Point.hpp and ExprOps.hpp: lazily evaluated element-wise expressions and the functions on points, over the reals. Doubles are idealised as real numbers; a value that is not a real number (division by zero, logarithm or root outside the domain: inf/NaN in C++) is [None]. Asserts are enabled ([Abort]); an out-of-range vector access is [UB].
* **M_Pool.v** (17 definitions). Model of mltk::ThreadPool (ufjfmltk-core/include/ufjfmltk/core/ThreadPool.hpp). Part 1: the block partition of parallelize_loop, a pure function. Part 2: the pool as a small-step machine: any number of client threads and workers, one atomic access (atomic variable or critical section of queue_mutex) per step, any interleaving. Simplifications: sequentially consistent atomics (the code uses the default ordering); counters do not overflow; tasks terminate and do not throw out of the worker (an escaping exception ends the process); sleep_or_yield is a stutter; the value returned through a future by submit is not modelled.
* **M_Pq.v** (27 definitions). Models of the priority queue and of the table of visited nodes of AOS, ufjfmltk-featselect/include/ufjfmltk/featselect/AOS.hpp:34-115, 1037-1466. Nodes live in a [store]; a pointer is a position of it, and [None] is a node that was deleted: reading it is undefined. Values are reals. The constant MAX_HEAP is the argument [cap]. Printing is left out; levels are natural numbers (in the code: int, never negative).
* **M_RandPt.v** (5 definitions). Model of the random points: ufjfmltk-core/include/ufjfmltk/core/Point.hpp:565-610, on top of the generator of M_Random (Random.cpp:12-39). The value a new distribution(lo, hi) takes from a generator state is a parameter; coordinates are reals. Single-threaded calls only; seeds fit in unsigned int.
* **M_Random.v** (9 definitions). Model of the random numbers: ufjfmltk-core/src/Random.cpp and include/ufjfmltk/core/Random.hpp. std::mt19937 and the distribution are parameters: a state type, seeding, one step, and the value a new std::uniform_int_distribution(lo, hi) takes from a state. Values of std::random_device are inputs. Single-threaded calls only.
* **M_Range.v** (4 definitions). Model of the axis ranges of the plots and of the points of the decision surface. ufjfmltk-visual/include/ufjfmltk/visual/Visualization.hpp. Doubles are real numbers; mltk::min and mltk::max are the ones of M_Point.v, with [tiny] and [huge] the smallest positive and the largest double.
* **M_Rates.v** (5 definitions). Model of the remaining fields of the reports of ufjfmltk-valid/include/ufjfmltk/valid/Validation.hpp and of their printing, over the reals. M_Valid.v has the counters and the rates; [None] is a value that is not a number.
* **M_Reg.v** (8 definitions). Model of the regressors: ufjfmltk-regressor/include/ufjfmltk/regressor/{KNNRegressor,LMS,PrimalRegressor,Metrics}.hpp. A sample is a vector and its (real) label; a dataset is a list of samples.
* **M_Regr.v** (14 definitions). Model of the readers for datasets whose labels are real numbers (type "Regression"): ufjfmltk-core/include/ufjfmltk/core/Data.hpp:682-1045. M_Load.v and M_Load2.v have the same readers for classes. A point is the pair of its features and its label, both rationals; a file is the list of its characters. [None]: the reader returns false.
* **M_Report.v** (10 definitions). Model of the reports of kfold and kkfold, ufjfmltk-valid/include/ufjfmltk/valid/Validation.hpp:200-411. As in M_Valid.v the classifier is given by [train] (setSamples followed by train()) and [evaluate], random choices by [sh], doubles are real numbers and a number that is not finite is [None]. Verbosity is not modelled.
* **M_Sampling.v** (8 definitions). Model of Data::sampling: ufjfmltk-core/include/ufjfmltk/core/Data.hpp:2030-2066, on the heap of shared points (M_Heap). The generator is the function [rnd]: [rnd t b] is the t-th draw, from a uniform distribution over 0..b. The share count/size*samp_size is computed exactly (the doubles may round it).
* **M_Session.v** (24 definitions). Model of the settings a plot is drawn with: the configuration kept by a Visualization object, the commands it sends, and the gnuplot session that receives them. ufjfmltk-visual/include/ufjfmltk/visual/Visualization.hpp. The session is the list of its settings: "set k v" changes setting [k] until it is set again (gnuplot's own behaviour). Texts are strings; the data and functions of a plot command are one arbitrary text. An empty configuration entry is "".
* **M_Smo.v** (29 definitions). Model of the SMO trainer: ufjfmltk-classifier/include/ufjfmltk/classifier/SMO.hpp, over the reals. Simplifications: doubles are reals; C, TOL (SMO.hpp:41-42) and EPS (Learner.hpp:33) are parameters; the Alpha() fields of the training points are the vector [sm_alpha]; the kernel matrix is given (its computation is modelled in M_Kernel.v); [rnd] is the value of rand() after srand(0) (SMO.hpp:246-249); the verbose output is left out.
* **M_Smote.v** (9 definitions). Model of SMOTE: ufjfmltk-core/include/ufjfmltk/core/Sampling.hpp:122-205, over the reals. The metric is any real function. std::sort is an oracle [srt]; the numbers alpha, drawn from [0,1), are the stream [al]; the order of the artificial points after std::shuffle is the list of positions [perm]. The dataset returned holds the points of the argument, which is changed in place.
* **M_Stat.v** (19 definitions). Model of ufjfmltk-core/include/ufjfmltk/core/Statistics.hpp over the reals. A value that is not a real number (0/0) is [None]. Sums over a column add in the order of the points.
* **M_Str.v** (35 definitions). Model of the string functions of ufjfmltk-core/src/Utils.cpp, .../core/Utils.hpp and of Data<T>::identifyFileType (.../core/Data.hpp). A std::string is a list of characters; int is 32 bits wide, signed overflow is undefined behaviour. The "C" locale is assumed for isspace and isdigit. The result of atod is a rational: the double rounding is left out.
* **M_Valid.v** (25 definitions). Model of ufjfmltk-valid/include/ufjfmltk/valid/Validation.hpp. Random choices are given by [sh]: [sh site n] is the permutation std::shuffle applies to [n] elements at the [site]-th shuffle of the call. Doubles are real numbers; a division by zero (NaN or infinity in the code) is [None]. Dataset names, verbosity and timing are not modelled.
* **M_Weight.v** (9 definitions). Model of the weight vectors a dual classifier reports (ufjfmltk-classifier/include/ufjfmltk/classifier/DualClassifier.hpp:106-178) and of what SMO::train() stores in its solution (SMO.hpp:93-153), over the reals. Simplifications: verbose output is left out; solution.w is the vector that is returned, every position of which is assigned.

Line ranges cited by the definitions of the model (ranges closer than four lines are merged):

| source file | lines | of |
|---|---|---|
| AOS.hpp | 34-115, 128-152, 174-424, 431-1011, 1037-1466, 1498-1501 | 1503 |
| AdaBoostClassifier.hpp | 30-74 | 81 |
| AutoWeightedVoting.hpp | 15-23, 38-252 | 269 |
| BaggingClassifier.hpp | 18-53 | 60 |
| Classifier.hpp | 25, 36-42, 82-89 | 93 |
| Data.hpp | 56-57, 78-108, 144, 162, 198, 208, 213, 501-510, 536-543, 559-578, 592-2139 | 2145 |
| Datasets.cpp | 8-146 | 147 |
| DistanceMatrix.hpp | 9-31, 38-59 | 72 |
| DistanceMetric.hpp | 28-503 | 504 |
| DualClassifier.hpp | 16-74, 106-178 | 182 |
| ExprOps.hpp | 20-43, 50-221 | 265 |
| ExprScalar.hpp | 14, 20-27 | 30 |
| ExprTraits.hpp | 7-18 | 19 |
| FeatureSelection.hpp | 30-46 | 114 |
| Fisher.hpp | 46-157 | 159 |
| Golub.hpp | 37-161 | 163 |
| IMA.hpp | 53-77, 106-523, 537-707 | 711 |
| KMeans.hpp | 24, 48-179, 187-209 | 213 |
| KNNClassifier.hpp | 22-58, 62-149 | 157 |
| KNNRegressor.hpp | 34-60 | 63 |
| Kernel.hpp | 16, 33-42, 88, 141-386 | 385 |
| LMS.hpp | 40-97 | 99 |
| Learner.hpp | 21-40, 46, 56-70, 145-155, 217-224 | 225 |
| Metrics.hpp | 11-14 | 17 |
| OneVsAll.hpp | 30-44, 54-101 | 110 |
| OneVsOne.hpp | 30-53, 71, 85-142 | 151 |
| Perceptron.hpp | 49-50, 79-155, 178-464, 479-552 | 556 |
| PerceptronCommittee.hpp | 15-46 | 54 |
| Point.hpp | 41-52, 71-89, 123, 217-236, 247-260, 285-293, 300-333, 348-353, 363-497, 516-519, 527-537, 543-550, 556-859 | 860 |
| PrimalClassifier.hpp | 18, 42-57 | 107 |
| PrimalRegressor.hpp | 23-37 | 50 |
| RFE.hpp | 54-304 | 317 |
| Random.cpp | 9-39 | 52 |
| Random.hpp | 18-20 | 53 |
| SMO.hpp | 26-37, 41-42, 74-153, 157-421, 436-459 | 510 |
| Sampling.hpp | 10-104, 122-205, 210-295 | 296 |
| Solution.hpp | 15-44 | 47 |
| Statistics.hpp | 101-296 | 297 |
| ThreadPool.hpp | 53-67, 126-399, 404-545 | 548 |
| Utils.cpp | 15-219 | 221 |
| Utils.hpp | 8-9, 20, 65-82, 97-100 | 102 |
| Validation.hpp | 21-55, 86-89, 167, 200-637 | 639 |
| Visualization.hpp | 43-50, 105, 320-372, 380-480, 503-969, 973-1045, 1055-1139 | 1140 |
| VotingClassifier.hpp | 14-18, 28-67 | 84 |
| int_dll.cpp | 14-18, 24-99 | 100 |
| int_dll.h | 10-13 | ? |

## 4. What is not modelled

In general: floating-point rounding (except in C136-C138 and C143, where the decision function, the perceptron and the distances are computed in double precision), running times, console output and verbosity, dataset names (except where a theorem mentions them), the gnuplot program, file-system errors, and memory deallocation of points.

* `Data.hpp`: real labels in .txt files; iterators; the time limit.
* `Point.hpp`: `abs`/`log` free functions other than through `ExprOps`; integer element types in the arithmetic.
* `IMA.hpp`: training from an initial solution beyond its first read of the member w, the flexible (soft) margin beyond totality, `IMADual` without samples (the null test comes after the first read, IMA.hpp:557-566).
* `KMeans.hpp`: the messages.
* `Validation.hpp`: the messages and the discarded final validation of `kkfold` (250-295).
* `AOS.hpp`: cross-validation, the whole search with choice shape 2 (its children are C147), the dual (kernel) projection, messages and times; the search itself is C114-C116, its look-ahead C127, its queue and table C110-C113. Under `ufjfmltk-visual`: the folders, files and titles of the plots are C119-C121, the ranges and the decision surface C122-C123, the drawn lines C124, the settings sent C125, the session class C128-C130; the quoting of the texts, the point and line styles of `Visualization`, the gnuplot program beyond what plot, splot and replot do to the picture, and the Windows and Mac branches are not modelled.
* `Timer.hpp`, `Random.hpp` real-valued draws (they are arbitrary streams in the models that use them).

## 5. Properties: model, proof, status

Full statements are in `properties.jsonl`. Theorems whose name ends in `_refuted` prove, with a witness or for a whole class of inputs, that the code does not do what one would expect outside the guard of the other theorems.

| id | property | how it is proved | theorems | status |
|---|---|---|---|---|
| C01 | insertPoint appends or rejects | case analysis on the model; frame conditions | `C01_insertPoint`, `C01_after_classesCopy_refuted` | proved |
| C02 | Class bookkeeping matches the points | invariant over all histories of public mutators (M_Hist), by induction; witnesses for the calls that break it | `C02_history`, `C02_clear_refuted`, `C02_relabel_new_refuted`, `C02_remove_all_refuted`, `C02_relabel` | proved |
| C03 | removePoint removes exactly the addressed point | induction over the points; witnesses for absent ids, shuffled ids and a permuted index | `C03_removePoint`, `C03_removePoint_result`, `C03_removePoint_reject`, `C03_absent_refuted`, `C03_shuffled_refuted`, `C03_index_refuted` | proved |
| C04 | removePoints removes exactly the listed ids | induction over the point list | `C04_removePoints`, `C02_remove_all_refuted` | proved |
| C05 | removeFeatures keeps exactly the unnamed features | induction over the two-cursor merge with sortedness; witnesses for repeated names and reset names | `C05_removeFeatures`, `C05_removeFeatures_refuse`, `C05_duplicate_refuted`, `C05_names_reset_refuted` | proved |
| C06 | insertFeatures projects onto the requested features | induction over the merge | `C06_insertFeatures`, `C06_insertFeatures_renumber`, `C06_insertFeatures_absent` | proved |
| C07 | selectFeatures projects onto the requested features | induction; witness for the name 0 | `C07_selectFeatures`, `C07_zero_refuted`, `C07_names_refuted` | proved |
| C08 | copy is a faithful and independent copy | value level and heap of shared points; frame reasoning over arbitrary writes | `C08_copy_value`, `C08_independent`, `C08_copy_reads`, `C08_assign_shares` | proved |
| C09 | join is concatenation | list induction; witness with the cached distribution flag | `C09_join`, `C09_names_refuted`, `C09_loaded_refuted`, `C09_empty_refuted` | proved |
| C10 | Stratified split is a balanced partition | the multimap is a stable insertion sort; counting lemma for the round robin | `C10_stratified` | proved |
| C11 | Unstratified split gives equal disjoint parts | arithmetic on the block bounds; list lemmas | `C11_unstratified` | proved |
| C12 | splitByClasses groups points by label | filter lemmas | `C12_splitByClasses` | proved |
| C13 | shuffle is a permutation | permutation lemmas | `C13_shuffle` | proved |
| C14 | classesCopy is a filter | filter lemmas | `C14_classesCopy`, `C14_counts_refuted` | proved |
| C15 | normalize gives unit p-norm points | real analysis (Rpower); division by the norm | `C15_normalize`, `C15_euclid`, `C15_taxicab` | proved |
| C16 | Sampling respects class proportions | invariant over the draws; divergence by induction on the fuel; the positive direction without replacement by induction over a fair stream (T_Sampling2.v) | `C16_replacement`, `C16_hangs_refuted`, `C16_one_class`, `C16_eligible_refuted`, `C16_too_many`, `C16_fresh` | proved |
| C17 | CSV write/load round trip | round trip through write, tokenizer and number reader, by induction over points and characters | `C17_csv_round_trip`, `C17_csv_digits_refuted`, `C17_csv_exponent_refuted`, `C17_csv_label_refuted`, `C17_write_empty_refuted` | proved |
| C18 | Class-name to label mapping is a function and is injective | invariant over the sequence of class items | `C18_counts`, `C18_words`, `C18_integers`, `C18_function_refuted`, `C18_injective_refuted`, `C18_throws_refuted` | proved |
| C19 | File type detection depends on the extension only | string lemmas | `C19_type`, `C19_extension`, `C19_other`, `C19_inside_refuted`, `C19_no_dot_refuted` | proved |
| C20 | tokenize splits at separators | induction over the string | `C20_tokenize`, `C20_again` | proved |
| C21 | trim removes exactly surrounding white space | induction over the string | `C21_trim`, `C21_idempotent` | proved |
| C22 | Integer/text conversions are inverse | induction over digits, 32-bit bounds | `C22_itos`, `C22_stoin`, `C22_int_min_refuted`, `C22_leading_zero_refuted`, `C22_letter_refuted` | proved |
| C23 | is_number/atod accept and read decimal numerals | automaton-style induction over the numeral | `C23_is_number`, `C23_atod`, `C23_exponent_refuted` | proved |
| C24 | Point arithmetic is element-wise | induction over expression trees | `C24_expressions`, `C24_elementwise`, `C24_mismatch`, `C24_empty_refuted`, `C24_dot`, `C24_normalize`, `C24_linspace` | proved |
| C25 | Point assignment copies the value | list lemmas; exact value in the bad case | `C25_assign`, `C25_assign_refuted` | proved |
| C26 | Point max and min return the extreme element | fold invariant | `C26_max`, `C26_max_refuted`, `C26_min` | proved |
| C27 | Selected distance functors are metrics | Cauchy-Schwarz and Minkowski by induction over the vectors | `C27_euclidean`, `C27_manhattan`, `C27_chebyshev`, `C27_chebyshev_refuted` | proved |
| C28 | Dissimilarity functors are symmetric, non-negative and zero on equal points | sums of non-negative terms; witnesses for the functors that fail; Hassanat by a closed form of one coordinate of any sign (T_Hass.v) | `C28_hassanat_signs`, `C28_hassanat_negative_refuted`, `C28_hassanat_flat`, `C28_dissimilarities`, `C28_cosine`, `C28_asymmetric_refuted`, `C28_kl_refuted`, `C28_kumar_refuted`, `C28_lorentzian_refuted`, `C28_bhattacharyya_refuted`, `C28_chord_refuted`, `C28_constant_refuted`, `C28_jensenshannon_refuted`, `C28_minsymmetric_refuted`, `C28_averagel1_refuted` | proved |
| C29 | Kernel matrix is the symmetric table of kernel values | loop invariants over matrix writes; positive semidefiniteness as a sum of squares | `C29_compute`, `C29_psd` | proved |
| C30 | Kernel matrix reflects the dataset last passed | history of two calls | `C30_history`, `C30_after_reset`, `C30_stale_refuted` | proved |
| C31 | H matrices are the label-weighted kernel | loop invariants | `C31_H`, `C31_resize_refuted`, `C31_without`, `C31_without_refuted` | proved |
| C32 | Distance matrix lookup equals the distance | coverage of parallelize_loop and commutation of writes to distinct cells | `C32_full`, `C32_triangular`, `C32_ids_refuted` | proved |
| C33 | parallelize_loop covers the range exactly once | integer arithmetic, induction over blocks | `C33_blocks`, `C33_waits` | proved |
| C34 | Every submitted task runs exactly once, in submission order of start | invariant of the small-step machine over all interleavings | `C34_conservation`, `C34_fifo`, `C34_history` | proved |
| C35 | wait_for_tasks returns only when the work is done | invariant of the small-step machine; witness trace | `C35_wait`, `C35_counter`, `C35_wait_paused`, `C35_wait_paused_refuted`, `C35_wait_paused_single_refuted`, `C35_progress` | proved |
| C36 | Pausing and destruction | invariant of the small-step machine | `C36_pause`, `C36_pause_refuted`, `C36_destructor`, `C36_destructor_paused_refuted`, `C36_reset` | proved |
| C37 | kNN predicts a plurality label of k nearest neighbours | sorting by distance and an arg-max lemma | `C37_plurality`, `C37_few_points_refuted` | proved |
| C38 | Perceptron success means separation | loop invariant | `C38_train_total`, `C38_success_separates`, `C38_timeout_refuted` | proved |
| C39 | Perceptron mistake bound | Novikoff's argument: two inequalities kept by each update | `C39_mistake_bound`, `C39_success` | proved |
| C40 | Dual perceptron equals primal perceptron | simulation between the two trainers | `C40_dual_equals_primal`, `C40_dual_success`, `C40_timeout_refuted` | proved |
| C41 | Fixed-margin perceptrons establish the margin | loop invariants | `C41_margin`, `C41_norm`, `C41_combination`, `C41_l1_norm_refuted`, `C41_timeout_refuted`, `C41_dual`, `C41_dual_fresh_refuted`, `C41_dual_zero`, `C41_dual_norm_refuted` | proved |
| C42 | One-vs-one voting | counting votes | `C42_train`, `C42_evaluate`, `C42_undefeated`, `C42_total` | proved |
| C43 | One-vs-all decision | counting; arg-max | `C43_train`, `C43_evaluate` | proved |
| C44 | SMO keeps the dual feasible | invariant over take_step | `C44_steps`, `C44_train` | proved |
| C45 | SMO support-vector list | invariant relating the list to the alphas | `C45_steps`, `C45_train` | proved |
| C46 | Doubly linked list operations | representation predicate on a heap | `C46_append`, `C46_remove`, `C46_free`, `C46_history`, `C46_null` | proved |
| C47 | kNN regression averages the k nearest | sorted prefix and mean | `C47_mean`, `C47_between`, `C47_few_refuted` | proved |
| C48 | MSE is a proper error measure | sums of squares | `C48_mean_square`, `C48_measure`, `C48_lengths` | proved |
| C49 | LMS update rule | loop unfolding over samples | `C49_training`, `C49_bias_refuted`, `C49_residual`, `C49_value` | proved |
| C50 | k-means assigns to the nearest centre | arg-min lemma over the loop | `C50_evaluate`, `C50_clusters`, `C50_twice_refuted` | proved |
| C51 | k-means centres are cluster means | sums over clusters; witness for the centre that is not zeroed | `C51_update`, `C51_mean_refuted`, `C51_empty_refuted`, `C51_train_refuted`, `C51_train` | proved |
| C52 | Hard and weighted voting | arg-max over weighted counts | `C52_weighted`, `C52_hard`, `C52_committee`, `C52_majority`, `C52_unknown_refuted` | proved |
| C53 | AdaBoost sample weights stay a probability distribution | sums of positive weights | `C53_distribution`, `C53_one_class_refuted`, `C53_one_point_refuted`, `C53_evaluate` | proved |
| C54 | Simplex projection lands on the simplex | sorting lemma; sums; witness | `C54_nonneg`, `C54_simplex`, `C54_sum_refuted`, `C54_short_refuted` | proved |
| C55 | k-fold split tests every point once and never trains on it | on top of splitSample: permutation and disjointness | `C55_stratified`, `C55_unstratified`, `C55_two_folds_refuted`, `C55_one_fold_refuted`, `C55_repeated` | proved |
| C56 | Train/test split is a partition | permutation lemmas | `C56_stratified`, `C56_unstratified`, `C56_unstratified_refuted` | proved |
| C57 | Confusion matrix counts predictions | counting | `C57_counts`, `C57_orientation_refuted`, `C57_unlisted_refuted` | proved |
| C58 | Accuracy measures agree | counting and division | `C58_accuracy`, `C58_agreement`, `C58_metrics`, `C58_metrics_refuted` | proved |
| C59 | classificationReport is total and correct | case analysis; witnesses | `C59_counts`, `C59_multiclass_refuted`, `C59_ratios_refuted` | proved |
| C60 | k-fold error estimate is the mean fold error | sum over folds | `C60_primal`, `C60_dual_refuted` | proved |
| C61 | Seeding makes runs reproducible | two histories of the generator | `C61_reproducible`, `C61_device`, `C61_in_force_refuted`, `C61_first_refuted`, `C61_again_refuted` | proved |
| C62 | Random subspace selection | distinctness of draws; projection | `C62_run`, `C62_any`, `C62_ratio_refuted`, `C62_names_refuted` | proved |
| C63 | SMOTE interpolates inside the minority class | loop over minority points; interpolation algebra | `C63_smote`, `C63_front`, `C63_segment_refuted`, `C63_neighbour_refuted` | proved |
| C64 | Synthetic dataset sizes | counting; loop lemmas | `C64_spirals`, `C64_blobs`, `C64_unlabelled`, `C64_blobs_n`, `C64_number_refuted` | proved |
| C65 | Statistics | sums over R; Cauchy-Schwarz | `C65_vector`, `C65_empty`, `C65_covar`, `C65_diagonal_refuted`, `C65_single_refuted`, `C65_mean_data`, `C65_std_data`, `C65_std_single`, `C65_std_refuted`, `C65_var_data`, `C65_var_data_refuted`, `C65_radius`, `C65_radius_one`, `C65_radius_one_refuted`, `C65_radius_other_refuted` | proved |
| C66 | Feature rankers keep the best features | ranking oracle; projection onto kept names | `C66_select`, `C66_too_many`, `C66_number`, `C66_zero_refuted` | proved |
| C67 | Recursive feature elimination reaches the requested dimension | induction over elimination levels | `C67_rfe`, `C67_invalid`, `C67_failure_refuted`, `C67_jump_refuted`, `C67_again_refuted` | proved |
| C68 | Dual and primal evaluation | algebra of inner products | `C68_primal`, `C68_dual`, `C68_agree` | proved |
| C69 | Visiting index enumerates every point once | permutation invariant | `C69_index_inserts`, `C69_index_refuted` | proved |
| C70 | Binary rates of metricsReport | counting; the rates follow the exchanged counts, so the sensitivity reported is the precision and the other way round | `C70_binary_refuted` | proved |
| C71 | Dual norms equal the norm of the weight vector | double sums | `C71_featureSpaceNorm`, `C71_norm_refuted` | proved |
| C72 | Retraining is consistent | two training runs compared | `C72_norm`, `C72_primal_norm_refuted`, `C72_dual_retrain_refuted` | proved |
| C73 | SMO error cache | invariant over take_step | `C73_cache` | proved |
| C74 | SMO improves the dual objective | quadratic along the constraint line | `C74_step`, `C74_train` | proved |
| C75 | SMO's answer true | KKT conditions at exit | `C75_true`, `C75_duplicates_refuted` | proved |
| C76 | CSV reading is memory-safe and rectangular | invariant over the lines of the file | `C76_csv_safe`, `C76_csv_end`, `C76_csv_end_refuted`, `C76_csv_classes`, `C76_csv_classes_refuted` | proved |
| C77 | .data reading is memory-safe | invariant over lines; shape of the loaded dataset | `C77_data_safe_refuted`, `C77_data_blank_refuted`, `C77_data_shape` | proved |
| C78 | .data write/load round trip | round trip; witnesses | `C78_data_round_trip` | proved |
| C79 | kNN reported probability | counting | `C79_always_one`, `C79_probability_refuted` | proved |
| C80 | kNN with precomputed distances | equality of the two evaluations | `C80_matrix`, `C80_triangular`, `C80_triangular_refuted`, `C80_precompute_refuted` | proved |
| C81 | k-means starting centres | distinct draws | `C81_start`, `C81_start_refuted` | proved |
| C82 | AdaBoost votes follow the multi-class rule | algebra of logarithms | `C82_alpha_refuted`, `C82_direction`, `C82_all_right` | proved |
| C83 | Voting weights are configuration | case analysis | `C83_weights_refuted`, `C83_weights`, `C83_type`, `C83_history` | proved |
| C84 | Inserting a point of another dataset | heap reasoning | `C84_keep_index`, `C84_renumbered_refuted` | proved |
| C85 | Class counts of the binary training sets | counting after relabelling; witnesses | `C85_ova_refuted`, `C85_ovo_refuted`, `C85_counts_refuted` | proved |
| C86 | normalize keeps the dataset well formed | frame conditions | `C86_well_formed`, `C86_removed_refuted`, `C86_empty_refuted` | proved |
| C87 | Ids in a sample | disjointness of drawn positions | `C87_duplicate_refuted`, `C87_ids` | proved |
| C88 | Distance between class centres | means per class | `C88_distance`, `C88_one_class_refuted`, `C88_without_refuted` | proved |
| C89 | Artificial regression data | loop lemmas | `C89_regression` | proved |
| C90 | Weights reported by a dual classifier | M_Weight.v: the three weight computations of DualClassifier.hpp:106-178 over the kernel model; closed forms by sum manipulations; the exact (asymmetric) quadratic form for getDualWeight, its one-class case, and a two-class witness with a negative value. | `C90_weight`, `C90_squares`, `C90_dual`, `C90_dual_one_class`, `C90_dual_refuted` | proved |
| C91 | The solution an SMO training stores | M_Weight.v: SMO::train() end to end (kernel construction, training loop, solution fields). Composes the SMO invariants C44/C45/C75 with the weight theorems; predictions through the model of DualClassifier::evaluate. | `C91_solution`, `C91_linear`, `C91_margin`, `C91_degree_one`, `C91_custom_refuted`, `C91_degree_one_refuted` | proved |
| C92 | The incremental margin algorithm separates and measures the margin | M_Ima.v: IMApFixedMargin::train and IMAp::train (IMA.hpp:115-503) as a loop of inner trainings. L_Ima.v projects its pass onto the fixed-margin pass of M_Fixed; T_Ima.v carries one invariant over all rounds (ima_inv). The initial-solution path is shown to read the empty member w. | `C92_total`, `C92_separates`, `C92_margin`, `C92_initial_refuted` | proved |
| C93 | The incremental margin algorithm increases the margin | Same invariant, extended by: the next margin goal is at least the margin just printed, and a successful round beats its goal strictly. The bound is Cauchy-Schwarz on the closest pair. | `C93_increasing`, `C93_bound` | proved |
| C94 | What a trained IMAp answers | Closed form of IMAp::evaluate composed with the margin theorem; witnesses by an exact run on two points. | `C94_evaluate`, `C94_training_points`, `C94_one_class_refuted`, `C94_positive_refuted` | proved |
| C95 | Balanced perceptron training | M_Balanced.v: BalancedPerceptron::train and evaluate (Perceptron.hpp:79-155). One loop lemma carries an arbitrary invariant of (weights, updates); instantiated with the Novikoff inequalities (with a non-zero start) for convergence. The shift is case analysis on the two smallest values. | `C95_total`, `C95_classifies`, `C95_balanced`, `C95_through_origin`, `C95_converges`, `C95_no_bias_refuted`, `C95_zero_epochs_refuted` | proved |
| C96 | Dual incremental margin training | M_Imad.v: IMADual::train (IMA.hpp:553-707) on top of the inner trainer of M_Fixed.v. One loop lemma carries: values = the dual function of the current alphas and bias (when the points start with alphas 0), and a successful call separates the points. Refutations run the model on three small datasets, step by step over the reals. | `C96_total`, `C96_weights`, `C96_failed`, `C96_classifies`, `C96_some_bias`, `C96_bias_refuted`, `C96_retrain_refuted`, `C96_margin_refuted`, `C96_svs`, `C96_svs_refuted` | proved |
| C97 | What the report of kfold contains | M_Report.v: kfold with its whole report (Validation.hpp:311-411), on top of the splits of M_Valid.v. Induction over the folds with the list of answers so far: the counters equal the counts of that list. | `C97_report`, `C97_counts_refuted`, `C97_perfect_refuted`, `C97_no_negative_refuted`, `C97_other_classes` | proved |
| C98 | Repeated cross-validation | M_Report.v: kkfold (Validation.hpp:200-309). Induction over the executions; the final split is C56. | `C98_mean`, `C98_no_execution_refuted`, `C98_one_fold_refuted`, `C98_zero_folds_refuted` | proved |
| C99 | Comparing, copying and assigning datasets | M_Eq.v: operator==, operator!=, copy, operator= and clear of Data.hpp with the two class names. The comparison is reduced to the record same_table (S_Eq.v); equivalence follows from it. Refutations: general for copies and cleared datasets, witnesses for labels and the counting flag. | `C99_equal`, `C99_equivalence`, `C99_differs`, `C99_copy`, `C99_copy_refuted`, `C99_assign`, `C99_clear_refuted`, `C99_labels_refuted`, `C99_assign_flag_refuted` | proved |
| C100 | Name of a loaded dataset | M_Eq.v: discover_dataset_name on top of tokenize (C20); induction over the runs of the directory part. | `C100_name`, `C100_dots`, `C100_slashes_refuted`, `C100_distinct_refuted` | proved |
| C101 | Columns, labels and point-wise changes | M_Eq.v: getFeature, getLabels, apply. Induction over the points. | `C101_feature`, `C101_range`, `C101_by_name_refuted`, `C101_labels`, `C101_apply`, `C101_apply_refuted` | proved |
| C102 | Reading ARFF files | M_Load2.v: load_arff (Data.hpp:933-1045) on the line and class model of M_Load.v. The table theorem is an induction over rows with the class state threaded; safety reuses the CSV safety lemmas since, with the class last, the row function is the CSV one. The refutations are general. | `C102_table`, `C102_safe`, `C102_comma_refuted`, `C102_header_refuted`, `C102_begin_refuted`, `C102_reload_refuted` | proved |
| C103 | Reading TXT files | M_Load2.v: load_txt (Data.hpp:1047-1135). Induction over lines and cells. | `C103_safe`, `C103_table`, `C103_ragged`, `C103_classes_refuted` | proved |
| C104 | Writing a file and loading it back by name | M_Load2.v: load (dispatch by file type and name) and write. Composes C17, C78, C19 and C100; the accumulation theorem runs the class-count invariant from the counts already there. | `C104_csv`, `C104_data`, `C104_txt_refuted`, `C104_again`, `C104_again_refuted`, `C104_counting_refuted`, `C104_plt`, `C104_plt_refuted`, `C104_refused` | proved |
| C105 | Borderline oversampling | M_Border.v: BorderlineSMOTEOne (Sampling.hpp:210-295) on the pointer heap of M_Heap.v, with SMOTE of M_Smote.v on the danger subset. A loop invariant relates heap, danger subset and recorded ids to the points seen; the copy back is an induction over the danger subset. The refutations are general. | `C105_borderline`, `C105_front_refuted`, `C105_short_refuted`, `C105_many_refuted` | proved |
| C106 | Choosing diverse feature subspaces | M_Dsm.v: DSM (Sampling.hpp:10-77), with the statistics of M_Stat.v; NaN is None and comparisons with it are false. std::set_intersection on unsorted ranges (outside its contract) is the usual merge, but the theorem shows the choice does not depend on it. Loop invariant per row; Cauchy-Schwarz bounds the scores; the relation `greedy` specifies the run. | `C106_new`, `C106_again`, `C106_labels_refuted`, `C106_scale_refuted` | proved |
| C107 | Automatic weighting returns its best random start | M_Awv.v: AutoWeightedVoting::train and evaluate (AutoWeightedVoting.hpp:73-252) with all its draws as oracles, NaN weights as None, and the search for parents with fuel (None: still drawing). One invariant over breeding, generations and search (kept): costs belong to the population, none exceeds the best, none exceeds the start of its position. soft_vote on numbers is related to weighted_vote (C52). The one-member theorem runs two generations symbolically. | `C107_best`, `C107_improves_refuted`, `C107_evaluate`, `C107_one_member_refuted`, `C107_seed_refuted`, `C107_candidate` | proved |
| C108 | Bagging trains every member on its own sample, all taken from the same few points | M_Bag.v: BaggingClassifier::train and evaluate (BaggingClassifier.hpp:31-53) on the pointer heap, with sampling of M_Sampling.v (C16, whose replacement theorem now gives the sample as a function of the random stream) and Data copies (C08). Induction over the members; evaluation composes C52. The trained member is an oracle function of seed and sample. | `C108_train`, `C108_reach_refuted`, `C108_seeds_refuted`, `C108_sizes_refuted`, `C108_evaluate` | proved |
| C109 | A committee of perceptrons answers the training labels | M_Pcom.v: PerceptronCommittee::train and evaluate (PerceptronCommittee.hpp:20-46) on M_Balanced.v; the shared dataset is threaded through the members. Any rearrangement is a shuffle (shuffle_to), so each member is the perceptron of C95 on the original dataset with another permutation; the convergence bound is the largest over the members; evaluation composes C52. | `C109_train`, `C109_separable`, `C109_majority`, `C109_unlisted_refuted`, `C109_empty_refuted` | proved |
| C110 | The search queue of AOS always yields a best node | M_Pq.v: the heap of AOS.hpp:1037-1466 over a store of nodes, with pointers as indices and deleted nodes as UB. Heap-order invariant preserved by sift and percolate (L_Pq.v), then refinement of the inductive bag specification (S_Pq.v) over any list of calls. | `C110_queue`, `C110_sorted`, `C110_full_refuted`, `C110_projected`, `C110_free`, `C110_free_refuted`, `C110_largest` | proved |
| C111 | The table of visited nodes of AOS keeps one node per set of features | M_Pq.v: Hash and Node::operator== (AOS.hpp:34-115 and the Hash functions). Invariant relating rows, store and the list of nodes added so far; induction over the additions. Refutations are general. | `C111_table`, `C111_full_refuted`, `C111_equal`, `C111_weight_refuted` | proved |
| C112 | Pruning the search queue of AOS removes exactly the stale nodes | M_Pq.v: Heap::cut, a loop from the last place downwards that moves the last node into the hole. Induction over the places; the loss of order is a witness run. | `C112_cut`, `C112_order_refuted` | proved |
| C113 | The queue and the table of visited nodes of AOS share their nodes | M_Pq.v: queue and table over one store. The positive theorem follows from C111 on the lists with and without the new node; the refutations are general. | `C113_merge_refuted`, `C113_dangling_refuted`, `C113_apart` | proved |
| C114 | The admissible ordered search of AOS returns a trained subset of the features, and ends | M_Aos.v: the constructor, selectFeatures and mainLoop of AOS.hpp, over the queue and table of M_Pq.v; the classifier and std::sort are oracles. L_Aos.v to L_Aos4.v: an invariant relating store, table, queue, stored weights and the recorded dataset (deleted nodes left in the table are at least two levels shorter than any new node), and a measure that bounds the turns; induction over the turns. Refutations are general. | `C114_sound`, `C114_ends`, `C114_reach`, `C114_breadth_refuted`, `C114_zero_refuted`, `C114_keep` | proved |
| C115 | AOS never ends with a classifier that reports no margin | M_Aos.v as for C114. Invariant: a non-empty queue of nodes at the last level without a positive margin; induction over the turns. | `C115_forever_refuted` | proved |
| C116 | AOS takes away the features of greatest weight first | M_Aos.v as for C114, with a queue of one node; refinement of the inductive specification heaviest (S_Aos.v). The value of a child is computed in closed form and compared with the projected margin. | `C116_heaviest`, `C116_value`, `C116_order_refuted` | proved |
| C117 | Point expressions refer to their operands: when they may be used later | M_Lazy.v: memory of vectors, numbers and operation objects with the references they hold (ExprTraits.hpp, ExprScalar.hpp), destroyed at the end of a statement; S_Lazy.v gives values only. Induction over expressions; the loops of the assignments by an invariant on the part already written. c117_by_value ties it to the by-value model of C24. | `C117_now`, `C117_assign`, `C117_number`, `C117_own`, `C117_own_refuted`, `C117_gather_refuted`, `C117_kept`, `C117_kept_refuted`, `C117_by_value`, `C117_sizes`, `C117_sizes_assign`, `C117_copied` | proved |
| C118 | Copies of a kernel classifier share its kernel object | M_Copies.v: a heap of kernel objects and a list of dual classifiers that point into it, with construction, copy, setters, training and destruction as steps; using or deleting a deleted object is UB. The numbers a training computes are an arbitrary function of the matrix it sees. S_Copies.v is the same without sharing, with the rules (`polite`). An invariant relates heap, pointers and values (L_Copies.v to L_Copies3.v), giving a refinement by induction over the steps; further invariants (L_Copies4.v) follow two holders of one object, and who deletes what. The OneVsOne pattern is an induction over the sets (L_Copies5.v). | `C118_values`, `C118_copy_refuted`, `C118_freed`, `C118_leak_refuted`, `C118_stale_refuted`, `C118_larger_refuted`, `C118_wrong_refuted`, `C118_ovo_smo`, `C118_ovo_plain`, `C118_trained_refuted`, `C118_blank_refuted`, `C118_settype_refuted`, `C118_plain_type_refuted` | proved |
| C119 | Plot folders belong to one plot object | M_Folders.v: folders by number, one static counter per element type, saved folders, and plot objects (Visualization.hpp:321-368, 503-542, 925-933, 1022-1045), with other programs as events. S_Folders.v: each object simply shows what it was last given. An invariant (L_Folders.v, L_Folders2.v) relates both, by induction over the events; the search for a free number ends by counting. Refutations are general. | `C119_fresh`, `C119_own`, `C119_others_refuted`, `C119_types_refuted`, `C119_keep_refuted` | proved |
| C120 | Each plot file holds the points of one class | M_Plot.v: one folder of files, output streams with their writing positions (two on one file write over each other), createTempFiles (Visualization.hpp:380-435). S_Plot.v gives the text of a class as the lines of its points. The loop invariant: each stream stands at the end of its file, which holds the lines of the points of its class so far. | `C120_files`, `C120_slash_refuted`, `C120_same_name_refuted`, `C120_unknown_refuted`, `C120_regression`, `C120_regression_name_refuted` | proved |
| C121 | Plot titles name the class of their file | M_Plot.v: the folder listing in an arbitrary order, valid_file, sortLabels with tokenize (C20) and the loops of the plot commands (Visualization.hpp:438-480, 613-618, 766-771, 880-911, 936-970). Both sorts are related to one sort of class positions; for the failing names, a sort of at least two elements has compared every one of them. | `C121_titles`, `C121_dot_refuted`, `C121_none_refuted`, `C121_regression_refuted`, `C121_decision`, `C121_underscore_refuted`, `C121_decision_slash_refuted` | proved |
| C122 | Axis ranges hold the data up to rounding | M_Range.v: configureRange (Visualization.hpp:1055-1115) over the reals with mltk::min/max of M_Point.v and std::round; bounds on rounding and the extremes. | `C122_near`, `C122_whole`, `C122_cut_refuted`, `C122_small_refuted`, `C122_points` | proved |
| C123 | The decision surface shows the learner on the two features | M_Range.v decision_grid (Visualization.hpp:852-878): getFeature, the ranges of C122, linspace and selectFeatures (C07), with an arbitrary learner. Projection on two features by induction over the names; the grid by induction over its rows. | `C123_surface`, `C123_swapped_refuted`, `C123_missing_refuted` | proved |
| C124 | Drawn lines and planes are those of the solution | M_Lines.v: coefficients of the lines and planes as optional reals (None where a double is infinite or NaN), weights read with the asserted index; M_Lines.v also has the columns of the regression plots. S_Lines.v has the decision function and sparse points. Proved as equivalences by algebra over the reals, with the sum over all features reduced to the chosen ones by induction. | `C124_line`, `C124_vertical_refuted`, `C124_same_refuted`, `C124_plane`, `C124_norm_refuted`, `C124_fit`, `C124_fit_one`, `C124_points`, `C124_points_refuted` | proved |
| C125 | A plot is drawn with the settings its call asked for | M_Session.v: the configuration of the object, the commands made from it and a gnuplot session as a map from settings to values ("set k v" changes one setting). S_Session.v says what a call asks for and what earlier plots asked for. Induction over programs with the invariant that no range is left in the configuration after a drawn plot. | `C125_alone`, `C125_left_refuted`, `C125_title_refuted`, `C125_shared`, `C125_shared_full`, `C125_stays_refuted`, `C125_script`, `C125_script_refuted`, `C125_lines` | proved |
| C126 | Numbers written as text | M_Dtoa.v: dtoa over the rationals with its digit loop, magnitude, exponent and 32 byte buffer (too many characters: UB). Loop invariants by induction on the magnitude (digits before the dot) and on the places left to 1e-9 (after it); the reading back combines it with the model of atod (C23). | `C126_plain`, `C126_exp`, `C126_power_refuted`, `C126_special`, `C126_inf_refuted`, `C126_read`, `C126_read_refuted` | proved |
| C127 | The look-ahead of AOS trains on features it has taken away | M_Look.v models lookAhead and the search with it; c127_root gives the first look-ahead exactly, by an invariant of its turns; c127_trained_refuted and c127_start_refuted hold in any state of the search, by induction on the turns; c127_off is a refinement: with depth 0 the search is that of M_Aos.v; c127_margin_refuted is a non-interference of g_margin over whole runs. choice_shape 1 only. | `C127_root`, `C127_off`, `C127_margin_refuted`, `C127_trained_refuted`, `C127_start_refuted` | proved |
| C128 | Curves of one kind share a picture until a reset | The gnuplot session class: cmd with its searches for "replot", "splot" and "plot", the members two_dim, nplots, pstyle and smooth, and all public calls with the exact texts they send. What gnuplot shows for those commands is a small separate semantics (plot, splot, replot). A simulation relation between the session and what the caller expects is proved to be kept by every call whose texts name no plot command, hence by every history; the refutations compute, for arbitrary texts of each harmful shape, the screen that results. | `C128_find`, `C128_picture`, `C128_settings`, `C128_together`, `C128_multiplot_refuted`, `C128_label_refuted`, `C128_replot_refuted`, `C128_splot_refuted` | proved |
| C129 | Data given to a gnuplot session reach a file of their own; 63 per process | create_tmpfile with the static counter, the lists of the sessions, the writing of the columns and of the pixels, remove_tmpfiles, and the destructor (which removes nothing). An invariant over histories ties the counter, the number of files and the names; removals of distinct sessions are a second induction. | `C129_contents`, `C129_reject`, `C129_pixels`, `C129_limit`, `C129_closed_refuted`, `C129_remove`, `C129_twice_refuted` | proved |
| C130 | gnuplot is looked for in the configured directory, then along PATH | stringtok as a one-pass function, get_program_path and set_GNUPlotPath over an arbitrary predicate of executable files. | `C130_entries`, `C130_delims`, `C130_search`, `C130_unset`, `C130_set`, `C130_set_refuted` | proved |
| C131 | What a fixed-margin IMA classifier answers on its own | M_ImaF models the constructor, the flag accessor, train and evaluate of the stand-alone class with the update step of M_Ima; the uninitialised flag is an option. c131_train is an invariant over the passes (sizes, permutation of the index, and the last pass without an error); c131_norm adds the norm invariant; the refuted theorems are general in the dataset. | `C131_train`, `C131_evaluate`, `C131_answers`, `C131_norm`, `C131_norm_refuted`, `C131_flag_refuted` | proved |
| C132 | Text, selection and comparison of points | M_PText: printing into characters with the number formats as parameters, reading coordinates through a checked access. c132_injective inverts the text by splitting at commas, for formats without commas and brackets; c132_select compares with an independent 'ascending' relation; c132_order_refuted is for all permutations. | `C132_text`, `C132_empty_refuted`, `C132_injective`, `C132_hidden_refuted`, `C132_data`, `C132_data_refuted`, `C132_select`, `C132_select_stops`, `C132_order_refuted`, `C132_equal`, `C132_label_refuted`, `C132_erase` | proved |
| C133 | Randomly initialised points | M_RandPt on the generator state of M_Random, with the draw of a distribution as a parameter. Induction over the coordinates; c133_again_refuted says in general that two calls with one seed are the parts of one call. | `C133_values`, `C133_same_size`, `C133_new`, `C133_reproducible`, `C133_between`, `C133_again_refuted` | proved |
| C134 | A kernel matrix given from outside | M_KernelSet adds setKernelMatrix, the matrix constructor and the operators to the kernel object of M_Kernel. S_KernelSet gives the history the caller can follow (the last source and whether a compute() stands); c134_history is the refinement for every sequence of calls. | `C134_history`, `C134_of_matrix`, `C134_kept`, `C134_lost_refuted`, `C134_row`, `C134_pair`, `C134_custom` | proved |
| C135 | The variance of a clustering | M_KmVar models the two loops over a cluster with the mean as an optional value (none for an empty cluster, absorbing if read). c135_value is the refinement to a separate sum of squares; minimality by completing the square in each coordinate. | `C135_value`, `C135_least`, `C135_split`, `C135_order`, `C135_members`, `C135_empty`, `C135_zero`, `C135_outside_refuted` | proved |
| C136 | Double precision: the decision value of a linear classifier | M_F64 has the decision function and evaluate over the binary64 numbers of Flocq (BinarySingleNaN, round to nearest even), S_F64 the exact value, the sum of the absolute terms and the error bound. The error is an invariant of the loop, ((1+u)^(k+1) - 1) A_k + k (1+u)^k h after k features, bounded with Bernoulli's inequality; the integer case is an exactness invariant. The order refutation is a computation on three given doubles. | `C136_error`, `C136_sign`, `C136_whole`, `C136_nan_refuted`, `C136_order_refuted` | proved |
| C137 | Double precision: what the answer of the perceptron means | M_F64 ftrain mirrors the trainer of M_Perc on binary64. c137_true: a pass without a mistake has tested every point with the final weights, and multiplying by 1 or -1 is exact for every double; the case of decision values that are not numbers is kept. c137_infinite_refuted is general in the data. | `C137_true`, `C137_infinite_refuted` | proved |
| C138 | Double precision: training on integers is exact and converges | A simulation between ftrain and ptrain (M_Perc, over the reals) with the invariant that after c updates weights are integers of size at most c r M and the bias at most c r; with C39 (Novikoff's bound) this gives convergence of the double-precision program. | `C138_exact`, `C138_converges` | proved |
| C139 | Fixed-margin trainers: one update is a gradient step | S_FStep gives the norms as functions of the weights and the weights with one coordinate replaced; c139_gradient proves derivable_pt_lim of the standard library for each norm (the sum splits into a constant and one term) and identifies the shrink term of fm_step with it. c139_largest is an invariant of the coordinate loop of the q = -1 formulation. | `C139_gradient`, `C139_largest` | proved |
| C140 | IMA: learning rates and support vectors | Induction over the calls with the list of update counts after each successful call as ghost state; a call that starts without updates and succeeds on non-empty data would have all points on the wrong side of zero weights, so the counts are at least 1. | `C140_rates`, `C140_support` | proved |
| C141 | Perceptron: training again on data of another dimension | The trainer of M_Perc with starting weights of any length: the asserted index of the weights fails in the first decision value, or (longer weights) an invariant on the number of weights over passes and loop. Both theorems are general in the data. | `C141_shorter_refuted`, `C141_longer_refuted` | proved |
| C142 | Automatic weighting: training is defined and keeps valid weights | Totality of every step of the search of M_Awv (votes, costs, parents, crossing, projection) and an invariant of the population over breeding and generations: lengths, and in the projected mode numbers that are not negative. The refuted theorem is general in the data. | `C142_safe`, `C142_one_refuted` | proved |
| C143 | Distances in double precision | M_F64d has the three distances over the binary64 numbers of Flocq, with std::pow(x, 2) taken as the rounded product; S_F64d the exact distances. Symmetry from the sign symmetry of rounding; the errors as products of (1 - u) and (1 + u), an induction over the coordinates; the sum is at least each of its terms, so its square root does not underflow. The refutations are general for underflow and for the least Chebyshev distance, computations on given doubles for overflow and the triangle inequality. | `C143_symmetric`, `C143_nonneg`, `C143_zero`, `C143_manhattan`, `C143_euclidean`, `C143_order`, `C143_chebyshev_refuted`, `C143_underflow_refuted`, `C143_overflow_refuted`, `C143_triangle_refuted` | proved |
| C144 | Starting centres of k-means | M_KmStart has the three starts; the distances of the kmeanspp start only matter when they are not valid weights. Induction over the draws; equal centres leave the later one without points (first minimum), and C51 then gives the centre that is not a number. | `C144_pp_refuted`, `C144_again_refuted`, `C144_same_refuted`, `C144_past_refuted`, `C144_none_refuted`, `C144_twin_refuted`, `C144_other_refuted`, `C144_train_refuted`, `C144_other` | proved |
| C145 | Error, F-score and printing of a report | M_Rates adds the derived fields and the printed lines; field arithmetic over the counts, a four-way split of the sum of all cells of the matrix, and C59, C70. | `C145_fscore`, `C145_no_hit_refuted`, `C145_error_refuted`, `C145_class_refuted`, `C145_print_refuted`, `C145_lines_refuted` | proved |
| C146 | Real labels are read from files | M_Regr.v: the branches of the readers of .csv, .arff and .data files taken for real labels, and the guess of the type in the first pass of load_data; induction over the items of a line and over the lines, for all tables of number texts; agreement with load_data of M_Load.v when classes are found. | `C146_csv`, `C146_arff_refuted`, `C146_data_last`, `C146_data_cut_refuted`, `C146_type_refuted`, `C146_agrees` | proved |
| C147 | The other rankings and the other choice of AOS | M_AosRank.v: the value each sorting shape compares, the comparison, and the loop over the children for both choices; the values in closed form by the sums of C65, C88 and the feature scores; the comparison by cases; the children by induction over the loop; the search with one child by the invariant of C116 for any ranking (T_AosRank.v). | `C147_fisher`, `C147_golub_refuted`, `C147_scaled_refuted`, `C147_shapes`, `C147_order`, `C147_nan_refuted`, `C147_choice`, `C147_choice_refuted`, `C147_search`, `C147_value` | proved |
| C148 | The remainder of a point and a number is the truncated one | M_Mod.v: the three combinations of element types of operator% that compile; truncated division of the integers, fmod as x - trunc(x/y)*y over the reals, and the conversion to int; by coordinate, lifted to points of every dimension (T_Mod.v). | `C148_int`, `C148_int_refuted`, `C148_double`, `C148_cut`, `C148_cut_refuted` | proved |
| C149 | Norms and normalisation of points | M_PNorm.v: std::pow on numbers that are not negative and infinite ones, the sum of powers, the maximum that starts at the smallest normal double, the quotients of double and of int points. The n-norm is characterised by r >= 0 and r^n = sum |v|^n (S_PNorm.v); the triangle inequality (Minkowski) by convexity of the n-th power, itself by induction on n; the order of the norms by |v| <= r (T_PNorm.v). | `C149_norm`, `C149_laws`, `C149_order`, `C149_max`, `C149_max_refuted`, `C149_negative_refuted`, `C149_normalize`, `C149_zero_refuted`, `C149_int_refuted` | proved |
| C150 | Statistics of integer points | M_IntStat.v: mean, var, std_dev and covar with T = int: checked int sums, division by a size_t modulo 2^64, conversion of the mean to int. The sums of products around the rounded means differ from those around the means by n times the product of the fractions (T_IntStat.v); S_IntStat.v has the textbook quantities over the reals. | `C150_mean`, `C150_mean_refuted`, `C150_stop`, `C150_var`, `C150_var_refuted`, `C150_covar` | proved |
| C151 | Integer points and a double | M_IntArith.v: the operator that overload resolution selects for an int point and a double (for - and / only the one taking an int fits), with the conversions to int; bounds of rounding towards zero, and its value on whole numbers and their quotients (T_IntArith.v). | `C151_whole`, `C151_cut`, `C151_sub_refuted`, `C151_div_refuted`, `C151_zero_refuted` | proved |
| C152 | Batch evaluation is evaluation point by point | M_Batch.v: batchEvaluate and batchEvaluateProbability for any learner given by a state and its evaluation, the latter with the conversion of every probability to int; refinement to the inductive sequence of calls of S_Batch.v by induction on the points (T_Batch.v). | `C152_calls`, `C152_pure`, `C152_prob_refuted`, `C152_certain`, `C152_prob_calls` | proved |

## 6. Trusted base

* Coq 8.16.1's kernel (and `coqchk`, which re-checks the compiled files).
* That the model files render the C++ faithfully within the simplifications stated in sections 3 and 4 and at each definition. This is by reading; there is no extraction and no run of the code.
* The small specification files `S_*.v`, which say what the words of the properties mean.
* For C136-C138, the definitions of the Flocq library (`binary_float`, `Bplus`, `Bmult`, `Bleb`, `Bsqrt`, `binary_normalize`) as the meaning of the C++ operators on `double`. Flocq is itself proved in Coq and adds no axiom to those of `Reals`.
* The axioms of Coq's standard library listed below, which enter through the real numbers (`Reals`) only. The development states no axiom, has no `Admitted`, no functor or module type, and switches off no kernel check. `coqchk` on the whole development also lists axioms of library files that are loaded but not used by any theorem; what a theorem uses is what `Print Assumptions` gives:

**Closed under the global context** (264 theorems):

C107_seed_refuted, C108_train, C108_reach_refuted, C108_seeds_refuted, C108_sizes_refuted, C152_calls, C152_pure, C01_insertPoint, C01_after_classesCopy_refuted, C02_history, C02_clear_refuted, C02_relabel_new_refuted, C02_remove_all_refuted, C02_relabel, C03_removePoint, C03_removePoint_result, C03_removePoint_reject, C03_absent_refuted, C03_shuffled_refuted, C03_index_refuted, C04_removePoints, C05_removeFeatures, C05_removeFeatures_refuse, C05_duplicate_refuted, C05_names_reset_refuted, C06_insertFeatures, C06_insertFeatures_renumber, C06_insertFeatures_absent, C07_selectFeatures, C07_zero_refuted, C07_names_refuted, C08_copy_value, C09_join, C09_names_refuted, C09_loaded_refuted, C09_empty_refuted, C10_stratified, C11_unstratified, C12_splitByClasses, C13_shuffle, C14_classesCopy, C14_counts_refuted, C69_index_inserts, C69_index_refuted, C46_append, C46_remove, C46_free, C46_history, C46_null, C126_plain, C126_exp, C126_power_refuted, C126_special, C126_inf_refuted, C126_read, C126_read_refuted, C99_equal, C99_equivalence, C99_differs, C99_copy, C99_copy_refuted, C99_assign, C99_clear_refuted, C99_labels_refuted, C99_assign_flag_refuted, C100_name, C100_dots, C100_slashes_refuted, C100_distinct_refuted, C101_feature, C101_range, C101_by_name_refuted, C101_labels, C101_apply, C101_apply_refuted, C119_fresh, C119_own, C119_others_refuted, C119_types_refuted, C119_keep_refuted, C67_invalid, C128_find, C128_picture, C128_settings, C128_together, C128_multiplot_refuted, C128_label_refuted, C128_replot_refuted, C128_splot_refuted, C129_contents, C129_reject, C129_pixels, C129_limit, C129_closed_refuted, C129_remove, C129_twice_refuted, C130_entries, C130_delims, C130_search, C130_unset, C130_set, C130_set_refuted, C08_independent, C08_copy_reads, C08_assign_shares, C84_keep_index, C84_renumbered_refuted, C134_row, C144_none_refuted, C81_start, C81_start_refuted, C124_points, C124_points_refuted, C17_csv_round_trip, C17_csv_digits_refuted, C17_csv_exponent_refuted, C17_csv_label_refuted, C18_counts, C18_words, C18_integers, C18_function_refuted, C18_injective_refuted, C18_throws_refuted, C76_csv_safe, C76_csv_end, C76_csv_end_refuted, C76_csv_classes, C76_csv_classes_refuted, C77_data_safe_refuted, C77_data_blank_refuted, C78_data_round_trip, C17_write_empty_refuted, C77_data_shape, C102_table, C102_safe, C102_comma_refuted, C102_header_refuted, C102_begin_refuted, C102_reload_refuted, C103_safe, C103_table, C103_ragged, C103_classes_refuted, C104_csv, C104_data, C104_txt_refuted, C104_again, C104_again_refuted, C104_counting_refuted, C104_plt, C104_plt_refuted, C104_refused, C148_int, C148_int_refuted, C43_train, C42_train, C85_ova_refuted, C85_ovo_refuted, C85_counts_refuted, C42_total, C132_text, C132_empty_refuted, C132_injective, C132_hidden_refuted, C132_data, C132_data_refuted, C132_select, C132_select_stops, C132_order_refuted, C132_equal, C132_label_refuted, C132_erase, C120_files, C120_slash_refuted, C120_same_name_refuted, C120_unknown_refuted, C120_regression, C120_regression_name_refuted, C121_titles, C121_dot_refuted, C121_none_refuted, C121_regression_refuted, C121_decision, C121_underscore_refuted, C121_decision_slash_refuted, C25_assign, C25_assign_refuted, C33_blocks, C33_waits, C34_conservation, C34_fifo, C34_history, C35_wait, C35_counter, C35_wait_paused, C35_wait_paused_refuted, C35_wait_paused_single_refuted, C36_pause, C36_pause_refuted, C36_destructor, C36_destructor_paused_refuted, C36_reset, C35_progress, C110_free, C110_free_refuted, C61_reproducible, C61_device, C61_in_force_refuted, C61_first_refuted, C61_again_refuted, C146_csv, C146_arff_refuted, C146_data_last, C146_data_cut_refuted, C146_type_refuted, C146_agrees, C98_zero_folds_refuted, C16_replacement, C16_hangs_refuted, C16_one_class, C16_eligible_refuted, C87_duplicate_refuted, C87_ids, C16_too_many, C16_fresh, C125_alone, C125_left_refuted, C125_title_refuted, C125_shared, C125_shared_full, C125_stays_refuted, C125_script, C125_script_refuted, C125_lines, C19_type, C19_extension, C19_other, C19_inside_refuted, C19_no_dot_refuted, C20_tokenize, C20_again, C21_trim, C21_idempotent, C22_itos, C22_stoin, C22_int_min_refuted, C22_leading_zero_refuted, C22_letter_refuted, C23_is_number, C23_atod, C23_exponent_refuted, C55_stratified, C55_unstratified, C55_two_folds_refuted, C55_one_fold_refuted, C55_repeated, C56_stratified, C56_unstratified, C56_unstratified_refuted, C57_counts, C57_orientation_refuted, C57_unlisted_refuted, C60_dual_refuted, C111_equal

**`ClassicalDedekindReals.sig_forall_dec`** (16 theorems):

C64_blobs, C64_unlabelled, C64_blobs_n, C92_initial_refuted, C32_full, C32_triangular, C32_ids_refuted, C124_fit_one, C133_values, C133_same_size, C133_new, C133_reproducible, C133_between, C133_again_refuted, C63_front, C90_weight

**`ClassicalDedekindReals.sig_forall_dec`, `FunctionalExtensionality.functional_extensionality_dep`** (163 theorems):

C147_order, C147_nan_refuted, C108_evaluate, C95_total, C95_classifies, C95_balanced, C95_through_origin, C95_converges, C95_no_bias_refuted, C95_zero_epochs_refuted, C152_prob_refuted, C152_certain, C152_prob_calls, C105_borderline, C105_front_refuted, C105_short_refuted, C105_many_refuted, C113_merge_refuted, C113_dangling_refuted, C113_apart, C52_weighted, C52_hard, C52_committee, C52_majority, C52_unknown_refuted, C83_weights_refuted, C83_weights, C83_type, C83_history, C53_evaluate, C54_nonneg, C54_simplex, C54_sum_refuted, C54_short_refuted, C67_rfe, C67_failure_refuted, C67_jump_refuted, C67_again_refuted, C62_run, C62_any, C62_ratio_refuted, C62_names_refuted, C89_regression, C151_whole, C151_cut, C151_sub_refuted, C151_div_refuted, C151_zero_refuted, C150_mean, C150_covar, C144_pp_refuted, C144_again_refuted, C144_same_refuted, C144_past_refuted, C144_twin_refuted, C144_other_refuted, C144_train_refuted, C144_other, C135_value, C135_least, C135_split, C135_order, C135_members, C135_empty, C135_zero, C135_outside_refuted, C50_evaluate, C50_clusters, C50_twice_refuted, C51_update, C51_mean_refuted, C51_empty_refuted, C51_train_refuted, C51_train, C37_plurality, C37_few_points_refuted, C80_matrix, C80_triangular, C80_triangular_refuted, C80_precompute_refuted, C79_always_one, C79_probability_refuted, C117_number, C117_own, C117_own_refuted, C124_line, C124_vertical_refuted, C124_same_refuted, C124_plane, C124_norm_refuted, C124_fit, C127_root, C127_trained_refuted, C127_start_refuted, C148_double, C148_cut, C148_cut_refuted, C43_evaluate, C42_evaluate, C42_undefeated, C109_train, C109_separable, C109_majority, C109_unlisted_refuted, C109_empty_refuted, C68_primal, C24_linspace, C110_queue, C110_sorted, C110_full_refuted, C110_projected, C110_largest, C112_cut, C112_order_refuted, C145_fscore, C145_no_hit_refuted, C145_error_refuted, C145_class_refuted, C145_print_refuted, C145_lines_refuted, C47_mean, C47_between, C47_few_refuted, C49_training, C49_bias_refuted, C49_residual, C49_value, C97_report, C97_counts_refuted, C97_perfect_refuted, C97_no_negative_refuted, C97_other_classes, C98_mean, C98_no_execution_refuted, C98_one_fold_refuted, C44_steps, C45_steps, C73_cache, C74_step, C44_train, C45_train, C74_train, C75_true, C75_duplicates_refuted, C63_smote, C63_segment_refuted, C63_neighbour_refuted, C65_mean_data, C65_var_data, C65_var_data_refuted, C58_accuracy, C58_agreement, C58_metrics, C58_metrics_refuted, C70_binary_refuted, C59_counts, C59_multiclass_refuted, C59_ratios_refuted, C60_primal, C111_table, C111_full_refuted, C111_weight_refuted, C90_squares

**`ClassicalDedekindReals.sig_forall_dec`, `ClassicalDedekindReals.sig_not_dec`, `FunctionalExtensionality.functional_extensionality_dep`** (92 theorems):

C147_choice, C147_value, C107_best, C107_improves_refuted, C107_evaluate, C107_one_member_refuted, C107_candidate, C142_safe, C142_one_refuted, C118_values, C118_copy_refuted, C118_freed, C118_leak_refuted, C118_stale_refuted, C118_larger_refuted, C118_wrong_refuted, C118_ovo_smo, C118_ovo_plain, C118_trained_refuted, C118_blank_refuted, C118_settype_refuted, C118_plain_type_refuted, C139_largest, C41_margin, C41_norm, C41_combination, C41_timeout_refuted, C41_dual, C41_dual_fresh_refuted, C41_dual_zero, C66_select, C66_too_many, C66_number, C66_zero_refuted, C64_spirals, C64_number_refuted, C116_value, C92_total, C92_separates, C92_margin, C93_increasing, C93_bound, C94_evaluate, C94_training_points, C94_one_class_refuted, C94_positive_refuted, C131_train, C131_evaluate, C131_answers, C131_norm, C131_norm_refuted, C131_flag_refuted, C140_rates, C140_support, C150_mean_refuted, C150_stop, C150_var, C150_var_refuted, C29_compute, C29_psd, C30_history, C30_after_reset, C30_stale_refuted, C31_H, C31_resize_refuted, C31_without, C31_without_refuted, C134_history, C134_of_matrix, C134_kept, C134_lost_refuted, C134_pair, C134_custom, C38_train_total, C38_success_separates, C38_timeout_refuted, C72_norm, C72_primal_norm_refuted, C39_mistake_bound, C39_success, C40_dual_equals_primal, C40_dual_success, C40_timeout_refuted, C68_dual, C68_agree, C141_shorter_refuted, C141_longer_refuted, C65_std_data, C65_std_single, C90_dual, C90_dual_one_class, C90_dual_refuted

**`ClassicalDedekindReals.sig_forall_dec`, `ClassicalDedekindReals.sig_not_dec`, `Classical_Prop.classic`, `FunctionalExtensionality.functional_extensionality_dep`** (144 theorems):

C114_sound, C114_ends, C114_reach, C114_breadth_refuted, C114_zero_refuted, C114_keep, C147_fisher, C147_golub_refuted, C147_scaled_refuted, C147_shapes, C147_choice_refuted, C147_search, C106_new, C106_again, C106_labels_refuted, C106_scale_refuted, C53_distribution, C53_one_class_refuted, C53_one_point_refuted, C82_alpha_refuted, C82_direction, C82_all_right, C136_error, C136_sign, C136_whole, C136_nan_refuted, C136_order_refuted, C137_true, C137_infinite_refuted, C138_exact, C138_converges, C143_symmetric, C143_nonneg, C143_zero, C143_manhattan, C143_euclidean, C143_order, C143_chebyshev_refuted, C143_underflow_refuted, C143_overflow_refuted, C143_triangle_refuted, C139_gradient, C41_l1_norm_refuted, C41_dual_norm_refuted, C28_hassanat_signs, C28_hassanat_negative_refuted, C28_hassanat_flat, C116_heaviest, C116_order_refuted, C96_total, C96_weights, C96_failed, C96_classifies, C96_some_bias, C96_bias_refuted, C96_retrain_refuted, C96_margin_refuted, C96_svs, C96_svs_refuted, C71_featureSpaceNorm, C71_norm_refuted, C117_now, C117_assign, C117_gather_refuted, C117_kept, C117_kept_refuted, C117_by_value, C117_sizes, C117_sizes_assign, C117_copied, C127_off, C127_margin_refuted, C27_euclidean, C27_manhattan, C27_chebyshev, C27_chebyshev_refuted, C28_dissimilarities, C28_cosine, C28_asymmetric_refuted, C28_kl_refuted, C28_kumar_refuted, C28_lorentzian_refuted, C28_bhattacharyya_refuted, C28_chord_refuted, C28_constant_refuted, C28_jensenshannon_refuted, C28_minsymmetric_refuted, C28_averagel1_refuted, C115_forever_refuted, C15_normalize, C15_euclid, C15_taxicab, C86_well_formed, C86_removed_refuted, C86_empty_refuted, C149_norm, C149_laws, C149_order, C149_max, C149_max_refuted, C149_negative_refuted, C149_normalize, C149_zero_refuted, C149_int_refuted, C72_dual_retrain_refuted, C24_expressions, C24_elementwise, C24_mismatch, C24_empty_refuted, C24_dot, C24_normalize, C26_max, C26_max_refuted, C26_min, C122_near, C122_whole, C122_cut_refuted, C122_small_refuted, C122_points, C123_surface, C123_swapped_refuted, C123_missing_refuted, C48_mean_square, C48_measure, C48_lengths, C65_vector, C65_empty, C65_covar, C65_diagonal_refuted, C65_single_refuted, C65_std_refuted, C65_radius, C65_radius_one, C65_radius_one_refuted, C65_radius_other_refuted, C88_distance, C88_one_class_refuted, C88_without_refuted, C91_solution, C91_linear, C91_margin, C91_degree_one, C91_custom_refuted, C91_degree_one_refuted

## 7. Where the code departs from the documented or natural behaviour

Each line is a theorem about the model. None of these is repaired in the model: the model follows the code.

* `C114_breadth_refuted`: with more children than the features that are to be left, a search in which every training succeeds goes beyond the end of the weights. The default of three children does so when one or two features are asked for.
* `C114_zero_refuted`: with no children the search answers an empty dataset.
* `C147_golub_refuted`: sorting shape 5 looks at neither mean: the value is |w| sqrt(variance of the class -1, less 1), and not a number unless both variances exceed 1 (that of class -1 may be 1).
* `C147_scaled_refuted`: when the values of a feature lie within an interval of length 1, as after scaling to [0, 1], its value is not a number.
* `C147_nan_refuted`: as soon as one value is not a number and two others differ it is not: std::sort is then undefined.
* `C147_choice_refuted`: with choice 2 and a sorting shape other than 2 and 3 the distance by which the margin is multiplied is -1: no child but the first enters the queue.
* `C107_improves_refuted`: the generations only make the population worse: no position ever holds a vector with more right answers than the one drawn for it.
* `C107_one_member_refuted`: with a single member and free weights (no projection), training for two generations or more never ends: all vectors of the second population are equal, so no second parent is ever found.
* `C107_seed_refuted`: the seed given to the ensemble does not fix the split: two runs with the same seed can validate on different points.
* `C142_one_refuted`: with one member the projected mode stops on a failed assertion; so does either mode without members.
* `C108_reach_refuted`: the samples all come from the same n/k points, or one more per class: the rest of the data reaches no member, whatever the seed.
* `C108_seeds_refuted`: ensembles of consecutive seeds share all samples but one.
* `C108_sizes_refuted`: with no members, or with more members than points, training is undefined.
* `C95_no_bias_refuted` (see the note of C95 in MANIFEST.json)
* `C95_zero_epochs_refuted`: with a maximum of 0 epochs training answers true for every dataset, whatever the labels.
* `C152_prob_refuted`: batchEvaluateProbability loses every probability below 1: all answers are 0, and they are 0 for all classifiers of the library.
* `C105_front_refuted`: when the points in danger carry the ids 1, 2, ... (they stand first in a dataset numbered as the loaders do), they are added to the dataset a second time and none of the artificial points is.
* `C105_short_refuted`: with fewer than m different non-zero distances from some point, null pointers are read.
* `C105_many_refuted`: with m at least the number of points there are never enough neighbours.
* `C113_merge_refuted` (see the note of C113 in MANIFEST.json)
* `C113_dangling_refuted` (see the note of C113 in MANIFEST.json)
* `C118_copy_refuted`: C118 fails for a trained SMO that is copied: both hold the same kernel object and both delete it. Whatever the program does next, it cannot train or destroy both.
* `C118_leak_refuted`: with perceptrons and IMAs no kernel object is ever deleted: each construction with a kernel type loses one.
* `C118_stale_refuted`: C118 fails for the copies that OneVsOne and OneVsAll train in turn when they were given a perceptron or an IMA with a kernel: all of them are trained with the kernel matrix of the first set.
* `C118_larger_refuted`: when a later set is larger than the first one the training reads outside the stored matrix.
* `C118_wrong_refuted`: what this does to a dual perceptron. After the matrix of the points 1 and -1 is stored, training on 1 with label -1 and 3 with label +1 answers true, but the point 1 is then classified as +1.
* `C118_trained_refuted`: C118 fails for an SMO that was trained before it was given to OneVsOne or OneVsAll: two of its copies cannot both be trained.
* `C118_blank_refuted`: a copy does not take over the solution: asked before it is trained itself it reads outside its empty alphas.
* `C118_settype_refuted`: setKernelType on one of two perceptrons or IMAs that hold the same kernel changes the answers of the other, which keeps its solution.
* `C118_plain_type_refuted`: a perceptron constructed without a kernel type has no kernel object, and its training makes one for the inner product: a kernel type set in between has no effect.
* `C01_after_classesCopy_refuted`: the guard on the class counters is needed. After classesCopy the counters are shorter than the class list and inserting a point of a listed class writes out of bounds.
* `C02_clear_refuted`: the counters survive clear(), so the next insertions count wrongly.
* `C02_relabel_new_refuted`: C02, relabelling to a label not seen before is undefined behaviour.
* `C02_remove_all_refuted`: C02, removePoints with all ids leaves no points but a size of one; the next insertion is undefined behaviour.
* `C03_absent_refuted`: an absent id between existing ones reads an uninitialised label: undefined behaviour.
* `C03_shuffled_refuted`: after a shuffle a present id can be refused.
* `C03_index_refuted`: removing from a dataset visited in another order (setIndex, as the trainers leave it) puts a negative position into the index.
* `C05_duplicate_refuted`: a feature named twice blocks the removal of later ones from the values but not from the names.
* `C05_names_reset_refuted`: inserting a point after removing features renames all remaining features.
* `C07_zero_refuted`: the name 0 silently selects the first feature and drops the last requested one.
* `C07_names_refuted`: the feature names of the result are 1..m, whatever names were selected.
* `C09_names_refuted`: the class names are sorted as text and the classes as numbers, so they stop matching.
* `C09_loaded_refuted`: joining onto a dataset whose counters were computed while loading leaves all counters zero.
* `C09_empty_refuted`: joining into an empty dataset leaves its dimension zero; removeFeatures then drops the names but no values.
* `C14_counts_refuted`: the class counters of the result are not filled.
* `C69_index_refuted`: after one removal and two insertions the index holds a position twice and omits the last point.
* `C106_labels_refuted`: if all the labels are equal every subspace consists of the first feature only.
* `C106_scale_refuted`: the covariance is divided by n-1, the deviations by n: with few points the score of a feature falls below that of the features already taken.
* `C126_power_refuted`: small powers of ten are not written as numbers: 1e-9 becomes ":e-10".
* `C126_inf_refuted` (see the note of C126 in MANIFEST.json)
* `C126_read_refuted` (see the note of C126 in MANIFEST.json)
* `C52_unknown_refuted`: the guard: a learner that answers something else than a class of the training data fails an assertion.
* `C83_weights_refuted`: an evaluation with hard voting overwrites the weights that were set: a later evaluation with soft voting uses ones.
* `C53_one_class_refuted`: the guards: with one class, or one point that a learner gets wrong, a logarithm of zero is taken.
* `C53_one_point_refuted` (see the note of C53 in MANIFEST.json)
* `C82_alpha_refuted` (see the note of C82 in MANIFEST.json)
* `C54_sum_refuted`: outside that guard the result can miss the simplex, also for weights between zero and one: (0, 1, 1) is returned as it is; one weight fails an assertion.
* `C54_short_refuted` (see the note of C54 in MANIFEST.json)
* `C99_copy_refuted` (see the note of C99 in MANIFEST.json)
* `C99_clear_refuted`: Comparing against a dataset with fewer counts: clear() keeps the counts of the classes.
* `C99_labels_refuted`: Labels take no part in the comparison.
* `C99_assign_flag_refuted`: Counting the classes of an assigned dataset is a different computation from counting those of its source: the flag that says the counts are known stays the one of the overwritten dataset.
* `C100_slashes_refuted`: The empty path and paths of slashes only: the last of no tokens.
* `C100_distinct_refuted`: Files that differ after their first dot get one name.
* `C101_by_name_refuted`: The argument is a position from 0, not a feature name from 1: asked for the last feature by name, the program stops.
* `C101_apply_refuted`: A change of label does not reach the list of classes and their counts.
* `C136_nan_refuted` (see the note of C136 in MANIFEST.json)
* `C136_order_refuted` (see the note of C136 in MANIFEST.json)
* `C137_infinite_refuted` (see the note of C137 in MANIFEST.json)
* `C143_chebyshev_refuted`: what is computed as Chebyshev distance is at least 2^-1022, also between a point and itself; otherwise it is the largest rounded difference.
* `C143_underflow_refuted`: points whose coordinates all differ by at most 2^-538 are at Euclidean distance 0.
* `C143_overflow_refuted`: finite points can be at infinite distance in all three.
* `C143_triangle_refuted`: the triangle inequality fails by rounding: 1, -2^-54 and -3 2^-54 on a line.
* `C41_l1_norm_refuted`: with the L1 formulation the norm kept is not the largest component: with the one point 1 of label 1 and gamma = 5, training answers true with w = 1, b = 1 and norm 0, although y (w.x + b) = 2 < gamma * 1.
* `C41_timeout_refuted`: when the time is already over at the first test, the primal trainer answers true for every dataset.
* `C41_dual_fresh_refuted`: with gamma not 0, the first training of a dual fixed-margin perceptron always divides by its norm 0.
* `C41_dual_norm_refuted`: but the norm kept is not the norm: with gamma = 0, rate 1 and the one point 1 of label 1, alpha is 1, the norm is 1, and the norm kept is the root of 5.
* `C119_others_refuted`: C119 fails next to folders of somebody else: every existing folder whose number was tried before a free one was found is deleted with the plot object, though it never wrote to it.
* `C119_types_refuted`: C119 fails for plot objects of two element types in one program: destroying the second deletes the folder of the first, which is still in use.
* `C119_keep_refuted`: C119 fails for keep_temp_files when a saved folder with the same number and time stamp is there already: the files are lost.
* `C67_failure_refuted`: when the one at some level fails, every feature of the dataset comes back, those already removed included.
* `C67_jump_refuted` (see the note of C67 in MANIFEST.json)
* `C67_again_refuted`: hence a second call on the same object never ends when the jump does not divide the depth.
* `C66_zero_refuted`: C66, why at least one feature must be asked for: asking for none leaves one.
* `C62_ratio_refuted`: with a ratio above 1 the call reads past the end of the features.
* `C62_names_refuted`: what is drawn are positions, not the names of features: 0 is no name.
* `C64_number_refuted`: C64 fails: 100 samples in 2 blobs are 200; 100 samples in 3 spirals are 99; two blobs of 10 and 20 samples are two of 30.
* `C128_multiplot_refuted` (see the note of C128 in MANIFEST.json)
* `C128_label_refuted` (see the note of C128 in MANIFEST.json)
* `C128_replot_refuted` (see the note of C128 in MANIFEST.json)
* `C128_splot_refuted` (see the note of C128 in MANIFEST.json)
* `C129_closed_refuted` (see the note of C129 in MANIFEST.json)
* `C129_twice_refuted` (see the note of C129 in MANIFEST.json)
* `C130_set_refuted` (see the note of C130 in MANIFEST.json)
* `C28_hassanat_negative_refuted`: so different points can be at distance zero.
* `C84_renumbered_refuted`: without keepIndex the id of the point is overwritten in the dataset it comes from: it becomes the new size of the receiving dataset.
* `C116_order_refuted`: the margin left is greater when a feature of smaller weight is taken away, but the value of the child is smaller.
* `C94_one_class_refuted`: on points of the one label 1, every point whose value is less than half of [big] norms is given label -1.
* `C92_initial_refuted`: started from an initial solution, training reads the weights of an empty vector.
* `C94_positive_refuted`: trained on the points 1 (label 1) and -4 (label -1), the classifier separates them with w = 1, b = 1 and answers -1 for both.
* `C131_norm_refuted`: given weights that separate the points but a norm of 0 (a Solution whose norm was not filled in), training answers true after one pass and keeps the weights, whatever the fixed margin is.
* `C131_flag_refuted`: a newly built object whose flag was not set reads it, uninitialised, on every non-empty dataset, as soon as there is time for a pass and neither limit is below what one pass takes: training is undefined behaviour.
* `C96_bias_refuted`: the answer true does not mean that the training points are classified. The inner call that ends the training is usually one that fails, and its bias is stored with the alphas of the call before: here the training points 1 and 2 are at values 6 and 2, and point 3, of label -1, is at value 0 and is given label 1.
* `C96_retrain_refuted`: training again starts from the alphas the points were left with, while the values and the bias start from 0: a second training on the dataset a first one classified answers true and stores a solution that misclassifies: the point 1, of label -1, is at value 0.
* `C96_margin_refuted`: the margin stored is not the distance from the hyperplane to the closest training point: for the points 1 and -1 it is 2 / sqrt 12, and the distance is 1.
* `C96_svs_refuted`: if it ends because an inner call fails, they are those of the failed call: a support vector may have a stored alpha of 0.
* `C151_sub_refuted`: p - s cuts the number instead: for s between 0 and 1 it leaves the point as it is, where p -= s takes 1 off every positive coordinate.
* `C151_div_refuted`: p / s likewise: it is undefined for every s between -1 and 1, where p /= s is not, and changes nothing for s from 1 to 2.
* `C151_zero_refuted`: dividing by exactly 0 is undefined for every point with a coordinate, with / and with /=.
* `C150_mean_refuted`: if the sum is negative the mean reported is above every int, and variance, deviation and covariance are undefined.
* `C150_var_refuted`: the variance of a point of zeros and ones is always 0, so that it does not tell constant points.
* `C30_stale_refuted`: C30 refuted: computing for a second dataset with the same kernel object keeps the matrix of the first.
* `C31_resize_refuted`: C31 refuted: after an H matrix for one point, building one for two points writes outside the first row.
* `C31_without_refuted`: C31 refuted: the matrix without a dimension is not symmetric for two points of different classes.
* `C71_norm_refuted` (see the note of C71 in MANIFEST.json)
* `C134_lost_refuted`: but the matrix an object was built from, or that was given before the first compute(), is replaced by the first compute() (every training calls it): the result does not depend on it.
* `C144_pp_refuted`: with "kmeanspp" the centres are the points at the positions drawn, whatever their distances; every point is as likely as any other.
* `C144_again_refuted`: so the point just chosen, whose weight is 0, can be drawn again.
* `C144_same_refuted`: when all points are at distance 0 from the first centre, the weights are not numbers.
* `C144_past_refuted`: the upper bound of the generator is a position past the last point.
* `C144_none_refuted`: asked for no cluster, kmeanspp writes to a centre that does not exist, whatever the data.
* `C144_twin_refuted`: from two equal centres the first round leaves the later one without points, so that a centre is not a number.
* `C144_other_refuted`: any other text leaves all centres at the origin; with two clusters or more the first round then gives a centre that is not a number.
* `C144_train_refuted`: training from a start with a repeated position, random or kmeanspp, gives a centre that is not a number.
* `C135_outside_refuted`: a position outside the dataset is read out of bounds.
* `C50_twice_refuted`: a second call adds every point again: each cluster has each of its points twice.
* `C51_mean_refuted`: C51 itself: a new centre coordinate is the mean of the cluster exactly when the old one was 0.
* `C51_empty_refuted`: a cluster without points makes a centre that is not a number.
* `C51_train_refuted` (see the note of C51 in MANIFEST.json)
* `C81_start_refuted`: the generator includes its upper bound, which is the number of points: that draw reads past the last point.
* `C32_ids_refuted` (see the note of C32 in MANIFEST.json)
* `C37_few_points_refuted`: the guard on k: with fewer than k training points the evaluation is undefined.
* `C80_triangular_refuted`: a query that is a training point: with the triangular matrix the point itself, at distance 0, loses against a point at distance 1.
* `C80_precompute_refuted`: precomputeDistances raises the flag without storing the matrix: every later evaluation reads the empty matrix, whose access is an assertion failure.
* `C79_probability_refuted`: in particular with two of three votes of two classes it is not the smoothed share of the winning class.
* `C117_own_refuted`: x /= x[k] leaves every coordinate after the k-th as it was.
* `C117_gather_refuted`: x = x[p] does not rearrange: the second of two exchanged coordinates gets the value just stored in the first.
* `C117_kept_refuted`: an expression kept with auto that has an operation inside another, or a number that is not a coordinate of a point, refers to temporaries that are gone: any use is undefined.
* `C124_vertical_refuted`: with w_y = 0 (a boundary parallel to the second axis) no line is drawn.
* `C124_same_refuted`: with the same feature on both axes the line is not the boundary: on the diagonal, where all points are, it is at half the place.
* `C124_norm_refuted`: a norm that is not a number is not handled there: the planes of the margin are missing.
* `C124_points_refuted` (see the note of C124 in MANIFEST.json)
* `C17_csv_digits_refuted` (see the note of C17 in MANIFEST.json)
* `C17_csv_exponent_refuted` (see the note of C17 in MANIFEST.json)
* `C17_csv_label_refuted` (see the note of C17 in MANIFEST.json)
* `C18_function_refuted`: C18 fails: after -1 two words get the same label and the same word two labels; an integer and a word, a fraction and an integer collide; a string of numeral characters with no digit makes the load throw.
* `C18_injective_refuted` (see the note of C18 in MANIFEST.json)
* `C18_throws_refuted` (see the note of C18 in MANIFEST.json)
* `C76_csv_end_refuted` (see the note of C76 in MANIFEST.json)
* `C76_csv_classes_refuted`: A line that starts with a delimiter gives a point whose label 0 is in no class.
* `C77_data_safe_refuted`: a line of a .data file without a class writes past the feature names; two blanks in a row set the label to 0.
* `C77_data_blank_refuted` (see the note of C77 in MANIFEST.json)
* `C17_write_empty_refuted`: Writing a dataset whose points have no features reads out of bounds.
* `C102_comma_refuted` (see the note of C102 in MANIFEST.json)
* `C102_header_refuted`: A line without a comma, as every line of the header of an ARFF file, among lines with one: nothing is read.
* `C102_begin_refuted` (see the note of C102 in MANIFEST.json)
* `C102_reload_refuted` (see the note of C102 in MANIFEST.json)
* `C103_classes_refuted`: The label 0 every point gets is in no class.
* `C104_txt_refuted`: With the extension txt nothing is written: what is read back is empty.
* `C104_again_refuted`: So the class counts are wrong as soon as there were points.
* `C104_counting_refuted`: After load, whether it worked or not, counting the classes does nothing.
* `C104_plt_refuted`: A point without features: the count of the columns before the last wraps around.
* `C127_margin_refuted`: with look-ahead the margin given for the pruning has no effect at all: any two are as good.
* `C127_trained_refuted`: any look-ahead, whatever is in the queue and the table: it answers 0, trains at most as often as its depth says, and only on the sample it was given, with all the features of it; the nodes it adds lie below the one it starts from, and one that counts as trained has the margin of such a training.
* `C127_start_refuted`: a primal classifier is handed the weights of earlier turns as well: from the second training on more than the node has features.
* `C27_chebyshev_refuted`: the Chebyshev distance from a point to itself is not zero.
* `C28_asymmetric_refuted`: C28 refuted for Neyman, Pearson and KDivergence: they are not symmetric.
* `C28_kl_refuted`: C28 refuted for Kullback-Leibler: negative, and not symmetric.
* `C28_kumar_refuted`: C28 refuted for Kumar-Johnson: a point is at distance [2 a a] from itself.
* `C28_lorentzian_refuted`: C28 refuted for Lorentzian: 1 - |p - q| is used where 1 + |p - q| is meant, so the value is negative for close points and undefined for points one or more apart.
* `C28_bhattacharyya_refuted`: C28 refuted for Bhattacharyya: never positive, and not zero on equal points.
* `C28_chord_refuted`: C28 refuted for Chord: the two norms are not square-rooted, so a point is not at distance zero from itself, and the value is undefined near the origin.
* `C28_constant_refuted`: C28 refuted for NonIntersection, JensenDifference and Average: integer divisions 1/2 and 1/n make the value constantly zero (for Average from dimension two on).
* `C28_jensenshannon_refuted`: C28 refuted for JensenShannon: the first half of the sum is multiplied by the integer 1/2 = 0, so it is KDivergence with its arguments swapped.
* `C28_minsymmetric_refuted`: MinSymmetric also takes the larger of the two sums, so it equals MaxSymmetric.
* `C28_averagel1_refuted`: C28 refuted for AverageL1Linf: the maximum starts from the smallest positive double.
* `C148_int_refuted`: so they are not all in [0, m) as soon as a coordinate is negative and not a multiple; and a divisor 0, or -1 with the least int, is undefined behaviour.
* `C148_cut_refuted`: so the int remainder of 2 by 3/2 is 0 although 2 is not a multiple of 3/2; and 0 as modulus is undefined behaviour, as a value that is not a number is converted.
* `C85_ova_refuted` (see the note of C85 in MANIFEST.json)
* `C85_ovo_refuted` (see the note of C85 in MANIFEST.json)
* `C85_counts_refuted`: the class counts of the sets are those of the whole data under its own class list, cut to two: they do not fit the new labels.
* `C115_forever_refuted`: with one feature to take away and a classifier that reports no positive margin, the search trains again and again and never ends.
* `C86_removed_refuted`: C86 fails after features were removed: the new feature gets the name of one that exists.
* `C86_empty_refuted`: ... and for an empty dataset: the new feature is named 0.
* `C149_max_refuted`: otherwise it is that number: the zero point, and the point without coordinates, have a positive norm.
* `C149_negative_refuted`: with a negative order every point with a zero coordinate has norm 0, and the point without coordinates an infinite one.
* `C149_zero_refuted`: the zero point becomes a point whose coordinates are not numbers.
* `C149_int_refuted`: an int point never gets norm 1 unless it had a single coordinate other than 0: with two or more it becomes the zero point, with one its sign is kept, and for the zero point it is undefined.
* `C132_empty_refuted`: a point without coordinates cannot be printed: its coordinate 0 is read.
* `C132_hidden_refuted`: but a hidden label makes the last coordinate look like a label: the text does not tell the number of coordinates.
* `C132_data_refuted`: and one point without coordinates makes printing the dataset undefined behaviour.
* `C132_order_refuted`: the order in which the positions are named does not matter, so a projection cannot reorder the coordinates.
* `C132_label_refuted`: so points with other labels, ids and alphas are equal.
* `C109_unlisted_refuted` (see the note of C109 in MANIFEST.json)
* `C109_empty_refuted`: a committee without members answers the class listed first for every point.
* `C38_timeout_refuted`: when the time is already over at the first test, training answers true for every dataset, separable or not.
* `C72_primal_norm_refuted`: otherwise it may not be: training again from the learned weights 1 ends without an update, and reports the norm 0.
* `C72_dual_retrain_refuted`: C72 fails for a second training of the same object: the weights are added to the old ones. One point 1 with label 1: after the first training w = 1, after the second w = 2, with alpha and the norm still 1.
* `C40_timeout_refuted`: when the time is already over at the first test the answers differ: the dual perceptron answers false.
* `C120_slash_refuted` (see the note of C120 in MANIFEST.json)
* `C120_same_name_refuted` (see the note of C120 in MANIFEST.json)
* `C120_unknown_refuted` (see the note of C120 in MANIFEST.json)
* `C120_regression_name_refuted` (see the note of C120 in MANIFEST.json)
* `C121_dot_refuted`: What stands before the first '.' of the file is not a class name.
* `C121_none_refuted`: No class at all: the loops run past the end.
* `C121_regression_refuted`: plot3D loops over the class names: data without classes.
* `C121_underscore_refuted` (see the note of C121 in MANIFEST.json)
* `C121_decision_slash_refuted` (see the note of C121 in MANIFEST.json)
* `C24_empty_refuted`: an empty operand is not rejected: the sum of a non-empty point and an empty one reads outside the empty vector.
* `C25_assign_refuted`: a longer target keeps its dimension and its old tail; label, alpha and id are never copied.
* `C26_max_refuted`: on a point with no positive element max returns [tiny], which is not an element.
* `C35_wait_paused_refuted`: the count of running tasks is read in two separate accesses, so with another thread pushing, wait_for_tasks can return while paused and a task is executing.
* `C35_wait_paused_single_refuted`: the same with a single client, when a worker was past the pause check and the queue length is read before the counter.
* `C36_pause_refuted`: a worker past the check starts a task although the pool is paused.
* `C36_destructor_paused_refuted`: destroying a paused pool drops the queued tasks.
* `C110_full_refuted` (see the note of C110 in MANIFEST.json)
* `C110_free_refuted` (see the note of C110 in MANIFEST.json)
* `C112_order_refuted` (see the note of C112 in MANIFEST.json)
* `C133_again_refuted`: but two calls in a row with one seed do not: the second point continues the sequence, the two are the halves of one point of twice the size.
* `C61_in_force_refuted`: C61 fails for the seed already in force (1 at the start): init leaves the generator as it is.
* `C61_first_refuted`: Two programs that begin with init(1) and draw the same ranges can see different values; and init(7) a second time does not restart the sequence.
* `C61_again_refuted` (see the note of C61 in MANIFEST.json)
* `C122_cut_refuted` (see the note of C122 in MANIFEST.json)
* `C122_small_refuted` (see the note of C122 in MANIFEST.json)
* `C123_swapped_refuted` (see the note of C123 in MANIFEST.json)
* `C123_missing_refuted` (see the note of C123 in MANIFEST.json)
* `C145_no_hit_refuted`: without a true positive it is not a number, where one expects 0.
* `C145_error_refuted`: errors is the number of wrong answers; error is not their share: the true negatives are counted in it too, so it is right only when there are none.
* `C145_class_refuted`: a report of classificationReport always has error 0 and no errors, and its F-score is 1, 0 or not a number.
* `C145_print_refuted`: print() shows one number three times, as Precision, Recall and F1-score; on two classes, for the second as positive one, it is the recall.
* `C145_lines_refuted`: the whole list printed for two classes: the counters true positives and true negatives are right, false positives counts the missed positives and false negatives the false alarms, and the accuracy is the share of the true positives alone.
* `C47_few_refuted`: the guard: more neighbours than samples are read out of bounds.
* `C49_bias_refuted`: the learning rate does not apply to the bias: with rate 1/2, one example and one pass, the bias moves by the whole error, so that no run of the rule with one rate for weights and bias gives this result.
* `C146_arff_refuted`: the same file as .arff loses every label: all are 0.
* `C146_data_cut_refuted`: with the labels at the front of the lines, or with a second label written without a point, the labels are cut to whole numbers, even when "Regression" is asked for.
* `C146_type_refuted`: whatever was asked for and whatever the labels are, a .data file that was read is one of classification.
* `C97_counts_refuted`: the four counts of the report never add up to the number of points tested: they exceed the size of the data.
* `C97_perfect_refuted`: a classifier that never errs is not reported with precision and recall 1: they are the number of folds, or not a number.
* `C97_no_negative_refuted`: with two classes none of which is -1 there are no negatives at all: the true negative rate is not a number.
* `C98_no_execution_refuted`: with no execution the report says both that no answer is wrong and that none is right.
* `C98_one_fold_refuted`: with one fold the call is undefined behaviour.
* `C98_zero_folds_refuted`: with no folds kkfold divides by zero before it runs anything, whatever the data and the number of executions.
* `C141_shorter_refuted`: an object trained before on data with fewer features cannot be trained again: the first point makes the program stop on the failed assertion of the weights' index.
* `C141_longer_refuted`: an object trained before on data with more features is trained on the first weights only; the superfluous ones stay, and evaluate() then answers 0 for every training point.
* `C16_hangs_refuted` (see the note of C16 in MANIFEST.json)
* `C16_eligible_refuted`: not every point of a class can be drawn: here the second of two points never is, with or without replacement.
* `C87_duplicate_refuted`: points drawn twice share their id: the ids of a sample are not distinct.
* `C125_left_refuted`: a decision surface that could not be drawn leaves its ranges for the next plot that has none.
* `C125_title_refuted`: setTitle has no effect on any later plot.
* `C125_stays_refuted`: in a shared session a title, a range, the output file or the map of a decision surface stays for the plots after it that do not set their own.
* `C125_script_refuted` (see the note of C125 in MANIFEST.json)
* `C75_duplicates_refuted` (see the note of C75 in MANIFEST.json)
* `C63_segment_refuted`: the artificial points are not on the segments between minority points, even when the other end is the near point.
* `C63_neighbour_refuted`: an artificial point need not even be built from two minority points.
* `C65_diagonal_refuted` (see the note of C65 in MANIFEST.json)
* `C65_single_refuted`: the covariance of vectors of one number is 0/0.
* `C65_std_refuted`: the two standard deviations of the same numbers differ unless they are constant.
* `C65_var_data_refuted`: so it is not the variance of that feature: here feature 1 (values 1, 3, 2) has variance 2/3 and feature 2 has variance 8.
* `C65_radius_one_refuted`: for that norm the result does not bound the distance to the centroid: -3, 3, 3 have mean 1, and -3 is at distance 4.
* `C65_radius_other_refuted`: for any other norm the radius is 1.
* `C88_one_class_refuted`: with one kind of points only, the distance is not a number.
* `C88_without_refuted`: distCentersWithoutFeats, given different names, measures the features it should leave out: only those count.
* `C19_inside_refuted`: C19 in general does not hold: a type name inside the extension is enough, and a name without a dot or type name is read past its start.
* `C19_no_dot_refuted` (see the note of C19 in MANIFEST.json)
* `C22_int_min_refuted`: C22 fails for the smallest int (signed overflow in both functions) and for numerals with a leading zero.
* `C22_leading_zero_refuted` (see the note of C22 in MANIFEST.json)
* `C22_letter_refuted`: a character that is no digit is not detected: it counts as its code, as a signed char, less 48.
* `C23_exponent_refuted`: An accepted numeral with an exponent is read without it.
* `C55_two_folds_refuted`: C55 with two folds: each pair tests the classifier on exactly the points it was trained on.
* `C55_one_fold_refuted`: one fold is undefined behaviour, whatever the data.
* `C56_unstratified_refuted`: unstratified splitting can drop points from both parts.
* `C57_orientation_refuted`: with the documented orientation (rows = true classes) the table is wrong.
* `C57_unlisted_refuted`: an answer that is not a listed class is booked under the first class.
* `C58_metrics_refuted`: with positive labels given, the correctly rejected samples are left out of the accuracy.
* `C70_binary_refuted`: for two classes and the second one declared positive, metricsReport on a generated confusion matrix gives the right tp and tn but exchanges false positives and false negatives, and with them sensitivity and precision.
* `C59_multiclass_refuted`: for any vectors of equal length whose number of distinct labels is not two, the function divides the integer 0 by 0.
* `C59_ratios_refuted`: the ratios are truncated to 0 or 1: whenever a report is returned, each is 1 exactly when the corresponding error counter is 0, and 0 otherwise, so 2 hits out of 3 give sensitivity 0.
* `C60_dual_refuted`: a classifier reporting the dual formulation is trained on the test fold as well: the samples it is given are all test points followed by all training points, whatever the data.
* `C111_full_refuted` (see the note of C111 in MANIFEST.json)
* `C111_weight_refuted` (see the note of C111 in MANIFEST.json)
* `C90_dual_refuted` (see the note of C90 in MANIFEST.json)
* `C91_custom_refuted`: C91 refuted for custom kernels: training on any dataset with a point throws, because it replaces the kernel object by a new one without a function.
* `C91_degree_one_refuted`: Refuted: the weights of degree one are those of the classifier. Here the weight is 1/2 and 1/4 is stored.
