# A Rocq model of Boost.Accumulators

The model lives in `rocq/theories/`.  It is a hand transcription of the headers in
`/repo/include/boost/accumulators/` into total, computable Gallina functions; the theorems are
about these functions.  Every model definition carries a comment with the header and the lines it
transcribes, and says where it simplifies.

## 1. Conventions

### 1.1 Numbers
The C++ code is generic in the sample type; so is the model.  `Num.v` defines a record `Num` of
operations (carrier, 0, 1, +, -, *, /, <), without laws, and every statistics accumulator is
transcribed once, over an arbitrary `Num`.  Theorems are then stated

* over *every* field of characteristic 0 (`FieldLaws K`) when only field algebra is needed (this
  covers rationals, reals and complex numbers);
* over every ordered field (`OrderedLaws K`) when order matters; the exact rationals (`QcN`) and the
  reals (`RN`) are proved to be instances.  Every finite `double` is a rational, so every finite
  input is covered; what is idealised is that arithmetic does not round;
* over the reals `R` when `sqrt` / `pow` occur in a formula and their laws matter; elsewhere `sqrt`,
  `pow` and `ceil` are parameters with a stated contract (`CeilSpec`);
* over any total order for the parts that only compare (min, max, tail);
* over an arbitrary rounding function with unit roundoff `u` for Kahan summation (C13), with
  IEEE binary64 (Flocq) as a proved instance;
* over the built-in integer types, with promotion, modular and undefined overflow (C02, C52);
* over IEEE binary64 itself, with rounding, overflow, infinities and NaN (C55–C59, C61–C65, C75, C76, C79, C80, C82, C84 and C85): `DoubleN` in
  `ModelDouble.v` is one more `Num`, built from Flocq's operations, so these theorems are about the very
  same transcribed functions.  Every operation rounds once, to double (no wider intermediate results, no
  contraction to fused operations); NaN has neither sign nor payload.

So unless a theorem says otherwise, **rounding is not modelled**; NaN and infinities are modelled only
where stated.  Division by zero is never relied upon: in the field theorems the inverse of 0 is
unspecified, in the ordered ones a guard excludes it.

`std::size_t` is `nat` (no wrap) except in C01, where the counter is modelled modulo 2^64.

### 1.2 Outcomes
Operations that can be undefined behaviour, or return NaN/throw, return
`outcome A := Ok a | NotANumber | UB`.  Reading outside a vector is `UB`, never a default value.

### 1.3 Histories
A history is a `list` of calls; a run is `fold_left step history init`.  All theorems quantify over
all lists, by induction; there is no bound on any size.

### 1.4 Standard library algorithms and other libraries
None of these is in `/repo`; each is modelled by its documented contract.

* `push_heap`, `pop_heap`, `sort_heap`: a record `HeapOps` of arbitrary functions with a `HeapContract`;
  the tail theorems hold for every implementation that meets it.  `sorting_heap` meets it (proved)
  and is used to run examples; so does `binary_heap` (ModelHeap.v), the binary heap in an array that
  standard libraries use, which also works in place (C69).
* `std::sort`, `upper_bound`, `lower_bound`, `find_if`: functions on lists meeting their contracts.
* `boost::circular_buffer`: a physical array with a begin position where C17/C44 need it
  (`ModelCircular.v`), a list elsewhere; the two are proved equivalent.
* `mpl::map`: the order in which it is enumerated is left arbitrary (theorems quantify over `enum`).
  `mpl::sort` is the quicksort of MPL (pivot = first element).
* ublas matrices: lists of rows; adding matrices of different shapes is undefined.
* Boost.Serialization archives: sequences of typed items; for the circular buffer two kinds of
  binary archive, one that keeps `save_binary` calls apart and one that does not.

### 1.4a The framework
`ModelFramework.v` treats a library of features as data (`Lib`: tags, feature_of, dependencies,
as_weighted_feature) and what its accumulators do as a `Behaviour` (init, step, result, where step and
result may read any feature of the set).  The C++ metafunctions become functions on these.
`ModelLibrary.v` is the table of the statistics library: all its tags with features, dependencies and
weighted versions.  `ModelSets.v` gives the basic accumulators their behaviour inside a set
(`BasicSets`); the others are a parameter (`Rest`) restricted only to read what the code extracts.
`ModelRollingSets.v` instantiates that parameter with the rolling accumulators, `ModelWhole.v` with all the
others (`WholeSets`: every accumulator of the library in one set).  In `ModelWhole.v` a tail keeps for each
sample the whole argument pack, of which tail_variate and tail_weights show the part that their code stores,
and caches of results (dirty flags) are left out; C43 treats them for single accumulators and C60 for whole sets.
`ModelArgs.v` puts named arguments in front of such a set: argument packs, defaults, parameters remembered by the
constructor.  `with_error<F...>` (with_error.hpp) is a request `Many` of the tags `error_of<F>`; the iterators of
times2_iterator.hpp are the indices `2 * i` of the extended P² results (`ModelPSquare.v`).

### 1.5 Layout
`Num.v` numbers; `Spec*.v` independent mathematical specifications; `Model*.v` the transcribed code, no
proofs; `Proof*.v` lemmas; `Props*.v` only the property theorems (each `exact lemma`, with `Print
Assumptions`) and the examples showing the hypotheses can be met.

## 2. Trusted base
* Coq 8.16.1's kernel (and `vm_compute`).
* The faithfulness of the transcription (the code is not run here).
* The contracts of section 1.4.
* Axioms: those printed by `Print Assumptions` under each theorem.  Theorems over `Qc`, `nat`, lists,
  abstract fields and ordered fields use none ("Closed under the global context").  Theorems over `R`
  (`C07_*`, `C12_error_of_mean`, `C13_rounded`, `C13_*binary64`, `C16_reals`, `C37_consistent`, `C55_*` to `C59_*`, `C61_*` to `C65_*`, `C75_*`, `C76_*`, `C79_*`, `C80_*`, `C82_*`, `C84_*`, `C85_*`, `C88_*`, `C89_*`, `C90_*`, `C91_*`, `C92_*`) use axioms of Coq's standard
  library: `ClassicalDedekindReals.sig_forall_dec`, `ClassicalDedekindReals.sig_not_dec`,
  `FunctionalExtensionality.functional_extensionality_dep`, and `Classical_Prop.classic` (`C13_*binary64`,
  `C37_consistent`, `C55_*` to `C59_*`, `C61_*` to `C65_*`, `C75_*`, `C76_*`, `C79_*`, `C80_*`, `C82_*`, `C84_*`, `C85_*`, `C88_*`, `C89_*`, `C90_*`, `C91_*`, `C92_*` only).
* Tools that list every constant without a body also list the opaque constants that the standard
  library seals behind module types: `Rdefinitions.RbaseSymbolsImpl.*`, `Rdefinitions.RinvImpl.*` (the
  definition of R and its operations) and `ssr.ssrunder.Under_rel.*` (loaded with Flocq's
  dependencies).  These are definitions inside the standard library, not assumptions.
* No axiom, parameter, functor or module type is added; no kernel check is switched off.

## 3. Plan, property by property

| id | model | proof |
|---|---|---|
| C01 | `count_impl`, counter in N mod 2^64 | induction; also framework-level (C40) |
| C02 | `sum_impl` over any `Num`; machine integers with UB/modular overflow | induction; Permutation |
| C03 | `mean_impl`, `immediate_mean_impl` over any field | invariant mean*n = sum |
| C04 | `min_impl`/`max_impl` over any strict total order with limits; extended (infinite) values | invariant; `_refuted` for infinities (initial value is the finite limit) |
| C05 | `lazy_variance_impl`, `variance_impl` with the (count, mean, variance) update order | invariant n*var = sum of squared deviations |
| C06 | `pow` by squaring, `moment_impl` | strong induction on N |
| C07 | skewness/kurtosis formulae over R | algebra on sums of powers |
| C08 | `covariance_impl` | invariant as C05; vectors by components |
| C09 | weighted impls | invariants with running weight totals |
| C10 | two models side by side | from C03–C09 characterisations |
| C11 | same | from C03–C09 characterisations and Permutation invariance of the specification |
| C12 | `error_of_mean_impl` over R | algebra |
| C13 | Kahan step with a rounding function | exactness for identity rounding; error bound |
| C14–C16 | rolling accumulators on the window | invariants relating buffer to last N+1 samples |
| C17 | circular buffer with physical array | round trip + bisimulation |
| C18–C20 | tail: samples, indices, heap relation | heap invariant, multiset of extremes |
| C21–C24 | tail quantile/means, weighted | from C18; `_refuted` where boundary is wrong |
| C25–C27 | density | invariants |
| C28, C35 | medians | refutations by witness, partial positives |
| C29–C34 | P-square family on marker lists | marker invariants; refutation for C34 |
| C36–C37 | POT | refutation by witness; real algebra |
| C38–C40 | feature graphs, resolution, quicksort, run | induction over graphs |
| C41–C42 | reference counts on DAGs | counting paths |
| C43–C44 | dirty flags, serialization of each state; `ModelLibraryArchive`: what every accumulator of the library writes, and whole sets with their caches | purity lemmas; a loaded set equals the saved one but for what is never used again (`csame`), and such sets go on alike; refutations |
| C45–C47 | wrappers, vectors, numeric helpers | direct |
| C48 | construction with `sample =` | refutation + positive part |
| C49 | weighted extended P² | invariant (ordered markers) by induction; simulation with the unweighted one |
| C50 | one P² step against the published update rule | case analysis of one push |
| C51 | one-probability extended P² against P² | simulation |
| C52 | integer types with promotion, wrap and overflow (`ModelInteger.v`) | invariants by induction; wrap lemmas; simulation with C14–C16 |
| C53 | framework model of C38–C42 plus `lshows` (what result() extracts), with_cached_result as a state machine with raw storage (`ModelCached.v`) | readings agree when the states below agree (induction on fuel); C40 at the moment of the drop; invariants for the cached accumulator |
| C54 | all accumulators in one set (`ModelWhole.v`) | each state machine's state in a set is its state alone (induction over the history, reading along the dependencies); then the theorems of C13–C37 for what each feature returns from the set |
| C55 | default, weighted, lazy variance and error_of<mean> over binary64 | by induction: no step of the default form produces a minus sign; the mean stays within the power of two, hence each term is bounded |
| C56 | min, max, sum, means, variance with NaN and infinities | min_assign keeps its left value unless the new one is smaller; NaN is absorbing for every other update |
| C57 | sum and means over binary64 | standard error analysis, by induction over the history; integers up to 2^53 are exact |
| C58 | rolling sum, mean, variance over binary64 | the error recurrence of subtract-then-add; for the variance the invariant that the rounded mean stays within the bound |
| C59 | the unweighted P-square accumulators over binary64 (no NaN samples: `leb` is the negation of `<`) | invariant: heights finite and ascending, positions exact integers, desired positions between 0 and n; the linear step divides by an integer of at least 2, so its rounded result stays between the neighbours |
| C60 | `ModelObserve`: extraction as an operation that changes the mutable members of its accumulator and of those it extracts from (`observe`), over sets that have the caches `ModelWhole` leaves out (`MemoSets`) | a simulation between the watched set with caches and the unwatched one without, generic in the library (`ProofObserve`): caches are valid relative to the unwatched set; the accumulators satisfy its laws (`ProofObserve3`); tails by C18's uniqueness of the tail |
| C61 | the tail, tail_quantile, non_coherent_tail_mean and coherent_tail_mean (right) over binary64; `d_ceil` is `static_cast<size_t>(std::ceil(x))` | on numbers that are not NaN `<` is the order of a rank, so the theorems of C18 apply (predicates made equal by functional extensionality); error of one rounded product for the rank; the coherent mean's errors added up in units of r u 2^k |
| C62 | density over binary64 (no NaN samples: `leb` is the negation of `<`) | the histogram needs no field laws (`lawless_main`: which samples a bin holds follows from the comparisons); positions ascending by monotonicity of rounding; error of three roundings |
| C63 | variance (immediate and lazy) and covariance over binary64 against `Variance`, `Covariance` of the exact values | induction over the history: one update keeps the error below `64 n u B^2` (B a power of two bounding the samples), with the errors of the mean from C13/C55; underflow and overflow excluded by the bound |
| C64 | weighted_sum, sum_of_weights, weighted_mean and immediate_weighted_mean over binary64, weights from 0 up | the sums: C13's bound plus one rounding or underflow per product; the immediate mean by induction with weight `w_n / W_n` of the new error, whose sum telescopes to `n` |
| C65 | weighted_p_square_quantile, weighted_p_square_cumul_dist and weighted_extended_p_square over binary64, weights of any sign up to 2^900 | the heights need no more of the positions than that they are finite: a distance above 1 is at least 1+2^-52, so the rounded linear step never leaves the neighbouring heights |
| C66 | weighted density, tails, peaks over threshold and the three weighted P-square estimators when all weights are multiplied by a constant | simulation for the first three (the heap of the tail never sees the weights); for P-square an invariant: while the total weight is at most 1 all positions are in [0,1], so that no marker has room to move |
| C67 | means, variances, covariances, all P-square estimators, density, tails and tail statistics, peaks over threshold when every sample x becomes a·x + b | textbook formulas for the moments; a simulation of the P-square algorithm (every height mapped, positions equal); the specification of density and tail applied in both units |
| C68 | what an iterator range returned by tail, tail_variate, density, the cumulative distribution, extended P², rolling_window or the tail variate means shows after further pushes and extractions | the state at the later moment determines what the kept iterators read (ModelViews); induction on the history; invalidated iterators are UB |
| C69 | the number of elements in the containers of a whole set | every operation of every accumulator keeps the sizes of its arrays (SpecMemory, ProofMemory), whatever the other features report; induction on the history; heap algorithms only assumed to work in place |
| C70 | valarrays of one element type use the operators of std::valarray (lengths must agree), integer elements the unchecked ones of valarray.hpp and vector.hpp (ModelValarray) | refinement to the vector sets of C46 and to the integer sets, invariant: the accumulator keeps its length |
| C71 | moments, covariance and rolling window of C01-C16, exact arithmetic in any ordered field | weighted Cauchy-Schwarz inequality by induction on the history, applied to the deviations; then the specifications of C01-C06 and C15 |
| C72 | every statistic of samples that are all equal; exact arithmetic and IEEE doubles | from the specifications of C01-C33 (a value between the least and the greatest sample is that sample); doubles: integers by induction on the history, quantiles from C59, witnesses by computation |
| C73 | tail quantile, tail means (also weighted), extended P-square quantile as functions of the probability, after any history | the number of samples used grows with the share; averages of longer prefixes of a sorted list; C31, C32, C49 for P-square; refuted for the coherent tail mean, quadratic interpolation and separate P-square estimators |
| C74 | the basic statistics instantiated with complex samples and scalar weights, any arithmetic | part by part by induction on the history (no laws of arithmetic); the complex numbers over an ordered field satisfy the field laws, so C05, C06, C09 apply to them |
| C75 | weighted_tail_quantile and non_coherent_weighted_tail_mean over binary64 | the loop that adds weights stops where the rounded running weight reaches the rounded threshold; both are within a few roundings of the exact ones, so it stops where the exact weights reach a threshold that is a little off; the mean is the weighted mean of C64 |
| C76 | weighted_density over binary64 | what is counted where, without laws of arithmetic, as for C62; the rounded sum of part of the weights never exceeds that of all, and both have a relative error |
| C77 | `ModelThrow.v`: the visit of the accumulators, stopped where one throws, for any predicate of when they throw and any state they leave themselves in | the set left behind agrees with the set after (before) a full push on the accumulators before (after) the one that threw; agreement on a part closed under needs is kept by further pushes |
| C78 | `ModelWorld.v`: a store of sets, statements that create, copy, assign, push, drop and destroy; sets referring to others as in external/reference | the world after a program against the life of each object told backwards (`SpecWorld.v`), by induction on the program; two equal objects simulate each other |
| C79 | weighted_variance (lazy and immediate) over binary64 | the lazy form is a weighted mean of squares less the square of a weighted mean, so C64 twice; the immediate form by induction: with λ the share of the weights before, the new error is at most λ times the old plus (1−λ) times an error of the order of the mean's, plus a few roundings |
| C80 | the weighted and the unweighted sets run side by side over binary64 | simulation over any numbers in which 1 is neutral for products and n+1−1 is n; the sum of n unit weights is literally the conversion of n; for tails, the loop over weights stops at the rank |
| C81 | tail quantile and tail means of two or three histories related sample by sample | no choice of r samples has a larger sum than the r most extreme (compare with the least of them); the coherent tail mean in the right tail is a combination of two such sums with nonnegative coefficients; order statistics by counting |
| C82 | sums, means, windows and extremes of doubles (infinities and NaN included), of two histories related sample by sample | rounding, clipped at the largest double, is monotone; each operation used keeps `not below`, comparisons with NaN being false; the sample leaving the window is the same in both histories |
| C83 | weighted statistics of two histories, of any lengths and orders, that give the same total weight to every value | a list of weights that add up to zero at every value has every weighted sum zero (take out one value at a time); closed forms of C09, C24, C27 are such sums; the quantile is the only value with less than the threshold strictly beyond it and at least the threshold up to it |
| C84 | sums, means, variances, moments, skewness, kurtosis, covariances, with and without weights, windows, tails and extremes of doubles (infinities and NaN included), of a history and the same with all samples negated | rounding is odd; each operation is odd or even up to the sign of zero; squares are the same bit for bit, so the divisors of skewness and kurtosis are; induction on the history |
| C85 | sums, means, variances, moments, skewness, kurtosis, errors, covariances, with and without weights, windows, tails and extremes of doubles, of a history and the same in a unit 2^e times as small | a second instance of the number interface, doubles with a sticky flag for overflow, underflow and invalid operations, runs the same model; scaling commutes with rounding where the result is normal, and always for sums; one generic induction over the model relates both the two units and the watched run to the plain one |
| C86 | calls of constructor, operator() and extractors with named arguments, for every set of library features | argument packs as keyword lists; the keywords each accumulator looks up; a simulation between the set run on packs and the set of C54 run on the values that are meant |
| C87 | two histories and the history of all their samples, run by the same model | the averages of C03–C09 pool with the counts or the sums of weights; central moments through raw moments; extremes and tails by their specifications (C04, C18) |
| C88 | `moment_run` and `weighted_moment_run` over `DoubleN` (IEEE binary64 of Flocq) | each multiplication of the repeated squaring adds at most one rounding, because rounded powers stay within the power of two that bounds them; then the accuracy of lazy (weighted) means (C57, C64) |
| C89 | `roll_run` over `DoubleN`: the default rolling mean and variance, the lazy rolling mean and variance and the rolling moments | the exact recurrences of the window's mean and sum of squared deviations; each step adds rounding errors proportional to the magnitude of the samples, so after n samples the mean is off by O(n) and the sum of squares by O(n^2) roundoffs; raising a negative sum to zero only reduces its error |
| C90 | `error_of_immediate_mean` and `error_of_mean_run` over `DoubleN` with the rounded square root of Flocq | the accuracy of variances (C63), one rounded division and one rounded root; the root of an error d is at most sqrt d, and at most d over the root itself |
| C91 | `skewness_run`, `kurtosis_run`, `weighted_skewness_run` and `weighted_kurtosis_run` over `DoubleN` with the rounded square root of Flocq | every intermediate of degree j in the samples carries a bound and an error in units of n u 2^(jk), added up operation by operation; the denominator is relatively close to the exact one, as the variance is well above the rounding errors, and the exact third and fourth central moments are at most 2b V and 4b^2 V |
| C92 | `wcov_set_run` over `DoubleN` | the step of C79 with two deviations instead of one squared; the exact covariance is bounded by half the sum of the variances, as the variances of sum and difference are not negative; the lazy weighted means it reads are those of C64 |

## 4. Testing the theorems
`seeded/LOG.jsonl` records wrong programs: an edit of a model definition, the claim it breaks, the
property theorems whose proofs broke, and the theorems that were tightened because they had not noticed.

`TestSuite.v` runs the model on the repository's own tests: every test of /repo/test with fixed samples (count, min, max, sums,
means, moments, variances, covariances, skewness, kurtosis, error_of, the rolling statistics, tails, tail variate means, droppable,
external, valarray, vector, and their persistency parts) is an `Example` that builds the set of the test in the model with
binary64 samples and compares what is extracted with the numbers the test expects, with the same tolerance, or exactly where the
test asks for equality.  The estimators, whose tests use random numbers, are run on an evenly distributed sequence and compared
with the true quantiles.  All agree.  The test of sum_kahan (a million float samples of 1e-6) takes the model
six minutes; it was run once outside the build and gives exactly 1.0f, as the test demands.  What cannot be run: peaks over threshold
(`pow`), value and reference of a user's type.

## 5. Findings
Every entry is a theorem named `..._refuted`: the transcribed code violates the plain reading of the
property, with a witness or for every input.  The property theorems beside it say what does hold.

| theorem | what goes wrong | code |
|---|---|---|
| C04_infinite_samples | min/max of samples that are all infinite is the largest finite number | min.hpp 36, max.hpp 36 |
| C08_vector_orientation | the covariance matrix of vectors is the transpose of the documented one | covariance.hpp 140-145 |
| C08_vector_dimensions | samples and variates of different dimensions add matrices of different shapes | covariance.hpp |
| C18_zero_cache | cache size 0 is accepted; the first sample is then undefined | tail.hpp |
| C21_exact_cache | a cache holding exactly the samples needed gives NaN: one more is required | tail_quantile.hpp |
| C21_end_points, C24_end_points, C36_prob_end_points | probability 0 (left) or 1 (right) reads before the range | tail_quantile.hpp, weighted_tail_quantile.hpp, peaks_over_threshold.hpp |
| C22_coherent_left | the left coherent tail mean is off by quantile/count (misplaced parenthesis) | tail_mean.hpp |
| C24_termination | weighted_tail_variate_means loops for ever when the cached weight does not reach the level | weighted_tail_variate_means.hpp |
| C28_interleaving, C28_interleaving_ub, C43_density_median | the running sum of the density median is never reset: a second extraction is wrong or undefined | median.hpp |
| C28_early, C28_constant | density median before the cache is full, or of equal samples, runs off the histogram | median.hpp |
| C32_quadratic_two, C32_empty, C49_no_probabilities | extended P² (quantile) with two, with no probabilities reads outside its arrays | extended_p_square_quantile.hpp, weighted_extended_p_square.hpp |
| C34_last, C34_monotone | the cumulative weights of the weighted P² distribution never end at 1, and need not be monotone | weighted_p_square_cumul_dist.hpp |
| C35_one_cell, C35_wrong_cell | the median by P² distribution interpolates one cell too far, or outside the histogram | median.hpp |
| C36_again, C36_early, C36_prob_again, C36_prob_nan, C36_prob_left, C43_pot, C43_weighted_pot, C43_pot_prob | every extraction of peaks over threshold overwrites its own sums (and the left threshold probability) | peaks_over_threshold.hpp, weighted_peaks_over_threshold.hpp |
| C38_sides | asked for the left and the right tail, a set contains the left one only | tail.hpp feature_of |
| C39 | rolling_variance with rolling_mean(lazy): the variance is updated with the wrong mean | rolling_variance.hpp, depends_on.hpp |
| C40_variates | with two covariates, the second mean reads the sum of the first covariate | mean.hpp, covariance.hpp |
| C41_implementation, C41_leak | drop<> releases what the abstract feature depends on, not what the accumulator holds: too much, or too little | accumulator_set.hpp 426-445 |
| C41_twice, C42_twice | a second drop of a feature stops another feature's dependency, or makes the dropped one resume | droppable_accumulator.hpp |
| C41_nested | a droppable feature inside a nested features<> never accumulates | accumulator_set.hpp 145-157 |
| C43_ties | which of several equal samples keeps its variate depends on earlier extractions | tail.hpp |
| C44_unsaved | weighted mean, lazy weighted variance, weighted skewness and kurtosis and error_of<mean> have no serialize(), so no set containing one can be saved (the rest of the library: C44_library_unsaved) | weighted_mean.hpp 33-61, weighted_variance.hpp, weighted_skewness.hpp, weighted_kurtosis.hpp, error_of_mean.hpp |
| C36_every_extraction | the mean and variance of one extraction are taken for sums by the next, on the left the mean with the wrong sign | peaks_over_threshold.hpp |
| C44_library_unsaved | weighted_median, weighted_tail_quantile, weighted_tail_mean and weighted_peaks_over_threshold_prob have no serialize(); that of tail_variate and tail_weights is private, so that nothing that depends on them can be saved either | weighted_median.hpp 39-62, weighted_tail_quantile.hpp, weighted_tail_mean.hpp, weighted_peaks_over_threshold.hpp 147-242, tail_variate.hpp 62-78 |
| C44_dropped | reference counts are not saved: a dropped accumulator resumes after loading | droppable_accumulator.hpp |
| C44_weighted_pot | weighted peaks over threshold does not save the weight above the threshold | weighted_peaks_over_threshold.hpp |
| C44_ring_blocks | a wrapped circular buffer is saved by two save_binary calls and loaded by one | rolling_window.hpp |
| C46_dimension, C46_no_initial_sample | vectors longer than the initial sample are truncated by the immediate mean; without `sample =` the dimension is 0 | functional/vector.hpp |
| C47_complex_one, C47_complex_weighted_sum | one of complex numbers is 1 + i | functional/complex.hpp 66-78 |
| C47_vector_constants, C47_fdiv_vectors | zero and one of vectors are () and (0); fdiv of two integer vectors truncates | functional.hpp, functional/vector.hpp |
| C48_variance, C48_rolling | `sample = s` at construction biases variance, moments, rolling variance (exact bias proved) | variance.hpp, moment.hpp |
| C52_mean, C52_sum, C52_lazy_variance, C52_moment_ushort, C52_moment_short, C52_rolling_sum, C52_rolling_mean, C52_weighted | integer sample types: totals wrap or overflow although samples and answer are representable (a negative variance, among others) | sum.hpp, moment.hpp, rolling_sum.hpp, rolling_mean.hpp, weighted_sum.hpp |
| C52_fed | an int pushed into a set of double is raised to its power as an int | accumulator_set.hpp 329-378, moment.hpp 66-70 |
| C53_value | a dropped mean keeps changing while its count is still wanted (documented as surprising) | droppable_accumulator.hpp |
| C53_cached_raw, C53_cached_over | with_cached_result uses its raw storage before the first reference, and forgets the result after one release too many | droppable_accumulator.hpp 184-257 |
| C54_quantile | pot_tail_mean builds on the only quantile of the set: asking also for tail_quantile changes it (coherent_tail_mean likewise) | pot_tail_mean.hpp 64-92, tail_mean.hpp 183 |
| C55_lazy_variance, C55_error_of_lazy_mean | the lazy variance of the doubles 2^27+1, 2^27+2 is -4, error_of<mean> NaN | variance.hpp 49-55, error_of_mean.hpp 44-48 |
| C55_weighted_finite | the weighted variance is NaN for ever once a weight dwarfs all before it (0/0) | weighted_variance.hpp 93-98 |
| C56_single, C56_infinite | a single NaN sample has variance 0; the minimum of infinity alone is the largest double | variance.hpp, min.hpp, max.hpp |
| C57_mean_outside, C57_same_mean, C57_order, C57_overflow | means of doubles leave the range of the samples, differ between the two forms, depend on the order, overflow | mean.hpp, sum.hpp |
| C58_drift, C58_recovers | rounding errors and infinities of samples that left the window stay in rolling sum, mean and variance | rolling_sum.hpp 42-55, rolling_mean.hpp 72-90 |
| C58_negative, C58_lazy_negative | the default rolling variance of -max, max is minus infinity (clamped only once the window is full); the lazy one is negative for close samples | rolling_variance.hpp 35-60, 124-142 |
| C59_overflow | the P-square median of seven samples, five of them -max and two max, is plus infinity | p_square_quantile.hpp 154-187 |
| C60_dropped | a dropped density reports one histogram if it was extracted before the drop and another if not: the kept result is not recomputed, a dirty one is, with the later count | density.hpp 169-187, droppable_accumulator.hpp 142 |
| C60_disturbing, C60_ties | inside a set, extracting the density median changes later medians, and extracting a tail decides which variates of equal samples remain | median.hpp, tail.hpp |
| C61_exact_rank | the rank of a tail quantile is rounded: of ten samples the quantile of the double 0.1, a little more than a tenth, is the first sample, not the second | tail_quantile.hpp 73-84 |
| C61_nan | a NaN that reaches a tail of one sample is never displaced (with a longer cache the heap algorithms get no strict weak order and nothing is promised) | tail.hpp 251-270 |
| C62_last_bin, C62_early_overflow | the rounded last position lies above or below the largest cached sample: the maximum is in the last bin (11 bins from 0 to 0.1), or a sample below the maximum counts as overflow (19 bins) | density.hpp 109-138 |
| C62_wide_spread | when max - min overflows, one position is NaN, the others infinite, and all samples are in bin 1 | density.hpp 109-117 |
| C64_leading_zero | a first sample of weight zero leaves immediate_weighted_mean NaN for good (0/0, then NaN times anything); the lazy one recovers with the first positive weight | weighted_mean.hpp 84-93 |
| C66_p_square, C66_frozen_quantile, C66_any_history, C66_frozen_extended, C66_frozen_distribution | the weighted P² estimators depend on the unit of the weights: markers move by whole units of weight, so with weights that add up to at most 1 (normalised ones) the estimate is for ever the third smallest of the first five samples | weighted_p_square_quantile.hpp 160-201, weighted_extended_p_square.hpp, weighted_p_square_cumul_dist.hpp |
| C66_peaks_again | the second fit of weighted peaks over threshold depends on the unit of the weights | weighted_peaks_over_threshold.hpp 94-120 |
| C67_coherent_shift | the coherent tail mean does not follow a shift of the samples: four samples 1 have the right tail mean 19/20 at level 0.6 | tail_mean.hpp 71-90 |
| C67_p_square_mirror | P² is not symmetric: the median of samples symmetric about 3 is estimated as 171/50, and reflecting the samples does not reflect the estimate | p_square_quantile.hpp 90-190 |
| C68_density, C68_extended, C68_tail | results that are ranges change under the caller: density and the cumulative distribution at the next extraction, extended P² at the next push, the tail at the next push of an extreme sample | density.hpp 186, extended_p_square.hpp 228-238, tail.hpp 205-222 |
| C68_tail | a tail range taken before the cache is full dangles after the next push | tail.hpp 194, 205-222 |
| C68_rolling_window | a range of the full rolling window shows one sample too many after one push and dangles after two | rolling_window.hpp 156-159 |
| C68_variate_means | a range of tail variate means dangles at the next extraction of the same feature (also by the same expression, e.g. comparing two extractions) | tail_variate_means.hpp 103-146, weighted 154-179 |
| C70_mixed_lengths | vectors or valarrays of integers: the immediate mean ignores the extra elements of longer samples (valarrays of a floating type are undefined there) | functional/valarray.hpp 78-95, vector.hpp 125-138 |
| C72_double_moments, C72_double_infinite, C72_double_shape | equal samples in double: skewness and kurtosis of two samples 0.1 are -inf and +inf, of three 0.1 NaN and 1.8e16, of three 0.7 -1.0e8 and -3; the lazy variance of three 0.1 is negative | skewness.hpp 54-67, kurtosis.hpp 54-65, variance.hpp 40-60 |
| C73 `C73_coherent_refuted` | `statistics/tail_mean.hpp` 71-90 | while the rank does not change, the coherent tail mean falls as the probability grows (right tail with positive quantile, left tail with negative quantile) |
| C73 `C73_quadratic_refuted` | `statistics/extended_p_square_quantile.hpp` 120-180 | quadratic interpolation between 0, 0, 10 gives -5/4 at 3/8 and 0 at 1/4: below every sample and falling |
| C73 `C73_psquare_refuted` | `statistics/p_square_quantile.hpp` | on the samples 8 4 7 2 7 1 1 the 10% estimate exceeds the 25% estimate |
| C74 `C74_spread_refuted`, `C74_negative_variance_refuted` | `statistics/variance.hpp` 40-129 with `numeric/functional/complex.hpp` | the variance of complex samples is the average of (z - m)^2, not of its modulus: 0 for 1, i, -1, -i and -1 for i, -i |
| C75 `C75_exact_quantile_refuted` | `statistics/weighted_tail_quantile.hpp` 75-109 | the running weight is a rounded sum: of the doubles 1 to 6, each of weight 0.3, the quantile of 1/2 is reported as 4 although the first three carry exactly half of the weight |
| C75 `C75_underflow_refuted` | `statistics/weighted_tail_quantile.hpp` 75-109 | when total weight times probability underflows to 0 the loop does not run and the sample before the first is read |
| C76 `C76_one_rounding_refuted` | `statistics/weighted_density.hpp` | light samples after a heavy one vanish in the total weight but not in their bin: fractions 1 and 5/2^54 |
| C77 `C77_undone_refuted` | `framework/accumulator_set.hpp` 308-378 | a push that throws half way is not undone: count has the sample, sum does not, and the mean is wrong for good |
| C78 `C78_together_refuted` | `framework/accumulators/reference_accumulator.hpp` 27-48 | copying a set that refers to another, together with that other, does not copy the relation: the copy takes its weights from the original, and dangles when the original goes |
| C79 `C79_unbalanced_refuted` | `statistics/weighted_variance.hpp` 70-115 | a weight of 2^55 times all those before it makes `sum_of_weights - weight` zero: the immediate weighted variance divides by it and is infinite or NaN for good, whatever the samples; the lazy one stays accurate |
| C92 `C92_unbalanced_refuted` | `statistics/weighted_covariance.hpp` 78-93 | the same weight makes the weighted covariance divide by zero: infinite or NaN for good, whatever the samples and variates |
| C80 `C80_tail_quantile_refuted` | `statistics/tail_quantile.hpp` 80, `weighted_tail_quantile.hpp` 86-91 | when the rank equals the number of cached samples, `tail_quantile` reports NaN (`n < size`) and `weighted_tail_quantile` with weights of one reports the last cached sample |
| C81 `C81_coherent_left_refuted` | `statistics/tail_mean.hpp` 86-89 | coherent_tail_mean of the left tail is not superadditive, so not a coherent measure of risk (the misplaced `?:` of C22); non_coherent_tail_mean is |
| C81 `C81_psquare_refuted` | `statistics/p_square_quantile.hpp` | raising a sample can lower the P-square median |
| C82 `C82_rolling_mean_refuted` | `statistics/rolling_mean.hpp` 75-92 | the default (immediate) rolling mean of doubles is not monotone: 2, -2^54 gives -(2^53-2), and 2+2^-51, -2^54 gives -2^53, although the first sample is larger |
| C82 `C82_window_refuted` | `statistics/rolling_sum.hpp` 40-50 | raising a sample that has already left the window can lower the rolling sum of doubles |
| C83 `C83_tail_mean_refuted` | `statistics/weighted_tail_mean.hpp` 90-133 | the non-coherent weighted tail mean depends on how the weight of a value is divided among samples: 1, 2, 2, 5 with weights 1, 1, 1, 2 gives 3/2 and 1, 2, 5 with weights 1, 2, 2 gives 5/3 |
| C88_overflow | moment<2> of two equal doubles 15*2^508 is infinite although both squares and the exact moment are finite: the sum of powers overflows before the division | moment.hpp 60-80 |
| C91_close_samples | skewness and kurtosis of the doubles 2^30 and 2^30 + 1 are NaN: their lazy variance, exactly 1/4, rounds to zero | skewness.hpp 57-67, kurtosis.hpp 54-65 |

Noticed while reading, not part of the model:

* `tail_variate_impl::serialize` is private; weighted_tail_quantile, weighted_tail_mean,
  weighted_skewness, weighted_kurtosis, error_of_mean, the lazy weighted mean and variance, one of the
  weighted medians, weighted peaks over threshold (probability) have no serialize(): a set containing
  them does not serialize.  `ar & fit_parameters_` serializes a boost::tuple.
* `median` members are saved uninitialised before the first extraction.
* droppable<tail_variate> / droppable<tail_weights> are never assigned by the tail.
* error_of_mean divides by count - 1 without a check (count 1).
* `new T[size * sizeof(T)]` in the loading of the rolling window over-allocates.
* complex times scalar casts the scalar to the component type: truncation for complex<int>.
* the destructor of with_cached_result reads the reference count after its lifetime, contrary to its comment.

## 6. Not modelled
Rounding and NaN samples except in C13, C55–C59, C61–C65, C75, C76, C79, C80, C82, C84, C85 and C88–C92, compile-time diagnostics other than missing, repeated and unnamed arguments (C86), packs built
outside a call and passed as one argument, conversions between argument types, iterator invalidation except in C68, exceptions except in C77, thread safety
(the library has none), `valarray` of elements narrower than int with weights, move of whole sets (it copies), overflow of the int reference count.
