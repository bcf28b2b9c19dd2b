{"id": "C01", "title": "count is the number of samples pushed", "statement": "After any history of calls acc(x1), ..., acc(xn) on an accumulator_set that contains tag::count, count(acc) returns n (reduced modulo 2^64, the width of std::size_t), whatever the samples are and whatever other features the set contains.", "quantifier": "every sample history of every length, every sample value, every set of additional features", "why_tests_cant": "A test pushes a handful of samples; the claim is about every history, including the wrap-around of size_t.", "anchors": ["include/boost/accumulators/statistics/count.hpp: count_impl", "include/boost/accumulators/framework/accumulator_set.hpp: operator()"]}
{"id": "C02", "title": "sum is the initial value plus the exact total, in any order", "statement": "sum(acc) (and sum_of_variates / sum_of_weights with the corresponding parameter) equals the construction value (zero by default) plus the total of all samples; pushing the same samples in another order, or split into several batches, gives the same sum in exact arithmetic.  For a machine integer sample type this holds as long as no prefix total leaves the type's range; otherwise the accumulation is undefined behaviour (signed) or modular (unsigned).", "quantifier": "every initial value, every sample list, every permutation and every split of it", "why_tests_cant": "Permutations and splits of an arbitrary list are not enumerable; overflow is only reached by specific prefixes.", "anchors": ["include/boost/accumulators/statistics/sum.hpp: sum_impl"]}
{"id": "C03", "title": "mean is the arithmetic mean, lazily or immediately computed", "statement": "For every non-empty history mean(acc) = (x1+...+xn)/n, both for the lazy feature tag::mean and for tag::immediate_mean (also _of_weights and _of_variates); therefore the two implementations are interchangeable at every point of every history.", "quantifier": "every non-empty sample history", "why_tests_cant": "The immediate recursion is checked by tests on a few values only; agreement after an arbitrary number of updates needs induction.", "anchors": ["include/boost/accumulators/statistics/mean.hpp: mean_impl, immediate_mean_impl"]}
{"id": "C04", "title": "min and max return the extreme sample", "statement": "After any non-empty history min(acc) (max(acc)) is one of the samples pushed and no sample is smaller (greater).  Before any sample it is the largest (lowest) value of the type.", "quantifier": "every non-empty history over a totally ordered sample type, any order of arrival", "why_tests_cant": "Quantifies over all values of the type, including infinities, and all arrival orders.", "anchors": ["include/boost/accumulators/statistics/min.hpp: min_impl", "include/boost/accumulators/statistics/max.hpp: max_impl", "include/boost/accumulators/numeric/functional.hpp: as_min, as_max, min_assign, max_assign"]}
{"id": "C05", "title": "variance is the population variance, lazily or immediately computed", "statement": "For every non-empty history variance(acc) (immediate) and variance computed by tag::variance(lazy) both equal (1/n) * sum (xi - mean)^2; in particular they agree with each other after every push and are never negative.", "quantifier": "every non-empty sample history", "why_tests_cant": "The incremental recursion divides by n-1 and uses the already updated mean; only induction shows that it telescopes for every n.", "anchors": ["include/boost/accumulators/statistics/variance.hpp: lazy_variance_impl, variance_impl"]}
{"id": "C06", "title": "moment<N> is the mean of the N-th powers", "statement": "For every N >= 1 and every non-empty history moment<N>(acc) = (1/n) * sum xi^N; the repeated-squaring power helper equals the N-fold product for every N.", "quantifier": "every order N, every non-empty history", "why_tests_cant": "N is a template parameter; tests instantiate two or three values.", "anchors": ["include/boost/accumulators/statistics/moment.hpp: pow, moment_impl"]}
{"id": "C07", "title": "skewness and kurtosis are the standardised third and fourth central moments", "statement": "Whenever the history has non-zero variance, skewness(acc) is the third central moment over the 3/2 power of the variance, and kurtosis(acc) is the fourth central moment over the squared variance, minus 3.  Consequently both are unchanged when every sample is shifted by a constant or scaled by a positive factor, and skewness changes sign under a negative scaling.", "quantifier": "every history with non-zero variance, every shift and scale", "why_tests_cant": "The code uses raw moments; the identity with central moments and the invariances hold for all real inputs or not at all.", "anchors": ["include/boost/accumulators/statistics/skewness.hpp: skewness_impl", "include/boost/accumulators/statistics/kurtosis.hpp: kurtosis_impl"]}
{"id": "C08", "title": "covariance is the population covariance", "statement": "For every non-empty history of (sample, variate) pairs covariance(acc) = (1/n) sum (xi - mean x)(yi - mean y); it is symmetric in the two roles, equals the variance when variate = sample, and for vector samples every entry is the covariance of the corresponding components.", "quantifier": "every non-empty history of pairs; every vector dimension", "why_tests_cant": "Incremental recursion over arbitrarily long histories.", "anchors": ["include/boost/accumulators/statistics/covariance.hpp: covariance_impl"]}
{"id": "C09", "title": "weighted statistics equal their weighted definitions", "statement": "With positive weights, weighted sum, mean (lazy and immediate), variance (lazy and immediate), moment<N>, covariance, skewness and kurtosis equal sum w x, sum w x / W, sum w (x-mu)^2 / W, sum w x^N / W, etc. with W = sum of weights, after every push.", "quantifier": "every non-empty history of (sample, weight) pairs whose running weight totals are non-zero", "why_tests_cant": "Weights are arbitrary rationals; the incremental forms divide by running totals.", "anchors": ["include/boost/accumulators/statistics/weighted_sum.hpp", "include/boost/accumulators/statistics/weighted_mean.hpp", "include/boost/accumulators/statistics/weighted_variance.hpp", "include/boost/accumulators/statistics/weighted_moment.hpp", "include/boost/accumulators/statistics/weighted_covariance.hpp", "include/boost/accumulators/statistics/weighted_skewness.hpp", "include/boost/accumulators/statistics/weighted_kurtosis.hpp"]}
{"id": "C10", "title": "weights mean what they say", "statement": "Giving every sample weight 1 yields the same results as the unweighted features; multiplying all weights by the same non-zero constant changes no mean, variance, moment, covariance, skewness or kurtosis; a sample of natural-number weight k counts like k pushes of that sample.", "quantifier": "every history, every common scale factor, every vector of natural weights", "why_tests_cant": "Relates two different accumulator sets over all histories.", "anchors": ["include/boost/accumulators/statistics/weighted_mean.hpp", "include/boost/accumulators/statistics/weighted_variance.hpp", "include/boost/accumulators/statistics/weighted_moment.hpp", "include/boost/accumulators/framework/depends_on.hpp: as_weighted_feature"]}
{"id": "C11", "title": "order-free statistics do not depend on arrival order", "statement": "If two histories are permutations of each other, then count, sum, mean, min, max, variance, moments, skewness, kurtosis, covariance (and weighted forms) report the same values, immediate implementations included.", "quantifier": "every pair of histories that are permutations of each other", "why_tests_cant": "n! orders.", "anchors": ["include/boost/accumulators/statistics/variance.hpp: variance_impl", "include/boost/accumulators/statistics/mean.hpp: immediate_mean_impl"]}
{"id": "C12", "title": "error_of<mean> is the standard error of the mean", "statement": "For every history of at least two samples error_of<tag::mean>(acc) = sqrt(variance/(n-1)), i.e. its square is the unbiased variance estimate divided by n.", "quantifier": "every history with n >= 2", "why_tests_cant": "All n; the n = 0 and n = 1 cases wrap or divide by zero.", "anchors": ["include/boost/accumulators/statistics/error_of_mean.hpp: error_of_mean_impl"]}
{"id": "C13", "title": "Kahan summation is at least as good as plain summation", "statement": "sum_kahan (and its weighted / variate variants) returns the exact total when no rounding occurs, and with rounding to nearest its absolute error is bounded by a small constant number of unit roundoffs times the sum of magnitudes with no linear dependence on n at first order.", "quantifier": "every sample list, every rounding function with relative error u", "why_tests_cant": "Worst-case rounding error over all inputs cannot be sampled.", "anchors": ["include/boost/accumulators/statistics/sum_kahan.hpp: sum_kahan_impl", "include/boost/accumulators/statistics/weighted_sum_kahan.hpp"]}
{"id": "C14", "title": "the rolling window holds exactly the last N samples", "statement": "With window size N, after n pushes rolling_window(acc) is the sequence of the last min(n,N) samples in arrival order and rolling_count(acc) = min(n,N).", "quantifier": "every window size, every history", "why_tests_cant": "All N and n, including n < N, n = N, n = N+1 and N = 0.", "anchors": ["include/boost/accumulators/statistics/rolling_window.hpp: rolling_window_plus1_impl, rolling_window_impl", "include/boost/accumulators/statistics/rolling_count.hpp"]}
{"id": "C15", "title": "rolling sum, mean and moment are those of the window", "statement": "At every point of every history rolling_sum, rolling_mean (lazy and immediate) and rolling_moment<M> equal the sum, the mean and the M-th moment of the current window contents.", "quantifier": "every window size N >= 1, every order M, every history", "why_tests_cant": "Add/subtract bookkeeping must stay consistent over unboundedly many evictions.", "anchors": ["include/boost/accumulators/statistics/rolling_sum.hpp", "include/boost/accumulators/statistics/rolling_mean.hpp", "include/boost/accumulators/statistics/rolling_moment.hpp"]}
{"id": "C16", "title": "rolling variance is the unbiased variance of the window", "statement": "At every point rolling_variance (lazy and immediate) equals sum (xi - window mean)^2 / (k-1) over the k window samples when k >= 2 and 0 otherwise; the underflow clamp never changes an exact result.", "quantifier": "every window size, every history", "why_tests_cant": "The incremental sum of squares survives any number of evictions only by an algebraic identity.", "anchors": ["include/boost/accumulators/statistics/rolling_variance.hpp: lazy_rolling_variance_impl, immediate_rolling_variance_impl"]}
{"id": "C17", "title": "saving and loading a rolling window preserves it", "statement": "Saving the circular buffer of a rolling window and loading it back gives a buffer with the same capacity and the same contents in the same order, whatever the physical wrap position; the restored accumulator reacts identically to every later push.", "quantifier": "every capacity, every history before the save, every wrap position, every history after", "why_tests_cant": "The physical split into array_one/array_two depends on history.", "anchors": ["include/boost/accumulators/statistics/rolling_window.hpp: save, load, rolling_window_plus1_impl"]}
{"id": "C18", "title": "tail caches exactly the most extreme samples, sorted", "statement": "With cache size k > 0, after n pushes tail(acc) is sorted (largest first for the right tail, smallest first for the left), has min(n,k) elements and consists of the k most extreme samples of the whole history.  This holds for every standard-conforming implementation of push_heap/pop_heap/sort_heap.", "quantifier": "every cache size, every history, both tails, every conforming heap implementation", "why_tests_cant": "Depends on heap shape, ties and arrival order.", "anchors": ["include/boost/accumulators/statistics/tail.hpp: tail_impl"]}
{"id": "C19", "title": "tail variates and weights stay attached to their samples", "statement": "The i-th element of tail_variate (tail_weights) is the variate (weight) pushed together with the i-th element of tail; the cached (sample, variate) pairs are a sub-multiset of the pushed pairs.", "quantifier": "every history, any number of tail variates, every point of extraction", "why_tests_cant": "Index permutations depend on heap history.", "anchors": ["include/boost/accumulators/statistics/tail_variate.hpp: tail_variate_impl", "include/boost/accumulators/statistics/tail.hpp: assign"]}
{"id": "C20", "title": "extracting the tail never disturbs later results", "statement": "Interleaving any number of tail extractions between pushes does not change the multiset cached nor any later tail extraction (up to ties in the attached variates); extracting twice in a row returns the same sequence.", "quantifier": "every interleaving of pushes and extractions", "why_tests_cant": "result() is const but re-sorts the heap array in place; all interleavings matter.", "anchors": ["include/boost/accumulators/statistics/tail.hpp: result"]}
{"id": "C21", "title": "tail_quantile is the order statistic of the whole history", "statement": "When the cache is large enough, quantile(acc, quantile_probability = p) equals the ceil(n p)-th smallest (left) or ceil(n (1-p))-th largest (right) sample of the full history; when it is not, the result is NaN (or an exception), never another sample.", "quantifier": "every history, p in (0,1), both tails, every cache size", "why_tests_cant": "Boundary between 'enough' and 'not enough' cached samples for all n and p.", "anchors": ["include/boost/accumulators/statistics/tail_quantile.hpp: tail_quantile_impl"]}
{"id": "C22", "title": "tail means average the right samples", "statement": "non_coherent_tail_mean is the average of the ceil(n alpha) most extreme samples of the history; coherent_tail_mean adds the documented correction (1/n)·quantile·(alpha − n/N) so that the result equals (1/(N alpha)) times the alpha-tail integral up to that term.", "quantifier": "every history, every level, both tails", "why_tests_cant": "All levels and sizes; the left and right branches differ by operator precedence.", "anchors": ["include/boost/accumulators/statistics/tail_mean.hpp: coherent_tail_mean_impl, non_coherent_tail_mean_impl"]}
{"id": "C23", "title": "tail variate means decompose the tail mean", "statement": "tail_variate_means (absolute) returns, for each variate coordinate, the average over exactly the samples that enter the tail mean; the relative version divides by the non-coherent tail mean, so that when the variates of each sample add up to the sample the relative means add up to 1.", "quantifier": "every history of vector variates, every level, both tails", "why_tests_cant": "All dimensions, levels and histories.", "anchors": ["include/boost/accumulators/statistics/tail_variate_means.hpp: tail_variate_means_impl"]}
{"id": "C24", "title": "weighted tail statistics terminate and pick the right samples", "statement": "weighted_tail_quantile, non_coherent_weighted_tail_mean and weighted_tail_variate_means return for every history: either the value defined by the smallest number of extreme samples whose weight reaches the level, or NaN/an exception when the cache does not reach it.", "quantifier": "every weighted history, every level, both tails, every cache size", "why_tests_cant": "Termination and bounds for all inputs.", "anchors": ["include/boost/accumulators/statistics/weighted_tail_quantile.hpp", "include/boost/accumulators/statistics/weighted_tail_mean.hpp", "include/boost/accumulators/statistics/weighted_tail_variate_means.hpp"]}
{"id": "C25", "title": "density conserves samples", "statement": "From the moment the cache is full every sample is counted in exactly one of the num_bins+2 bins: the bin fractions are non-negative and add up to 1, and bin i's fraction times n is the number of samples that fall in it.", "quantifier": "every history at least as long as the cache, every cache size >= 1 and number of bins >= 1", "why_tests_cant": "All histories and bin boundaries.", "anchors": ["include/boost/accumulators/statistics/density.hpp: density_impl"]}
{"id": "C26", "title": "density puts every sample in the bin that contains it", "statement": "Reported bin positions are increasing and equally spaced from the minimum to the maximum of the cached samples; a sample x is counted in bin i exactly when position[i] <= x < position[i+1] (underflow bin below, overflow bin at and above the maximum).", "quantifier": "every history with at least two distinct values among the first cache_size samples", "why_tests_cant": "Boundary values and out-of-range samples for all configurations.", "anchors": ["include/boost/accumulators/statistics/density.hpp: operator()"]}
{"id": "C27", "title": "weighted density conserves weight", "statement": "As C25/C26 with the fraction of a bin being the total weight of its samples over the total weight; with unit weights it is identical to density.", "quantifier": "every weighted history with positive total weight", "why_tests_cant": "All histories.", "anchors": ["include/boost/accumulators/statistics/weighted_density.hpp: weighted_density_impl"]}
{"id": "C28", "title": "the density-based median lies in the bin containing half of the mass", "statement": "median(acc) with the density variant returns the linear interpolation inside the first histogram bin where the cumulated mass reaches one half, and extracting it at any intermediate time does not change later results.", "quantifier": "every history, every interleaving of extractions", "why_tests_cant": "Interleavings of extraction and accumulation.", "anchors": ["include/boost/accumulators/statistics/median.hpp: with_density_median_impl", "include/boost/accumulators/statistics/weighted_median.hpp"]}
{"id": "C29", "title": "the P-square quantile estimate is always bracketed by the data", "statement": "From five samples on, the five P-square markers are ordered, the outer ones are the exact minimum and maximum of the history, marker positions are strictly increasing integers from 1 to n, and hence p_square_quantile(acc) lies between min and max — for every p in [0,1]; it is never undefined behaviour.", "quantifier": "every history with n >= 5, every p", "why_tests_cant": "Invariant of a floating algorithm with parabolic/linear switching over unbounded histories.", "anchors": ["include/boost/accumulators/statistics/p_square_quantile.hpp: p_square_quantile_impl"]}
{"id": "C30", "title": "the P-square cumulative distribution is a distribution function", "statement": "With b >= 1 cells and more than b samples p_square_cumulative_distribution(acc) returns b+1 points with non-decreasing values from the exact minimum to the exact maximum and strictly increasing cumulative probabilities from 1/n to 1.", "quantifier": "every b >= 1, every history with n > b", "why_tests_cant": "Unbounded b and n.", "anchors": ["include/boost/accumulators/statistics/p_square_cumul_dist.hpp"]}
{"id": "C31", "title": "extended P-square estimates are monotone in the probability", "statement": "With m >= 1 probabilities and at least 2m+3 samples, extended_p_square(acc) returns m values that are non-decreasing and lie between the minimum and maximum of the history.", "quantifier": "every m, every list of probabilities, every history with n >= 2m+3", "why_tests_cant": "Unbounded m and n.", "anchors": ["include/boost/accumulators/statistics/extended_p_square.hpp: extended_p_square_impl"]}
{"id": "C32", "title": "extended P-square quantile interpolates between its knots", "statement": "extended_p_square_quantile at a stored probability returns the stored estimate; between two stored probabilities the linear version returns a value between the two neighbouring estimates and is monotone in p; outside the stored range the result is NaN/an exception; the quadratic version reproduces three neighbouring knots.", "quantifier": "every increasing probability list, every p, every marker configuration", "why_tests_cant": "All knot configurations and boundary cases.", "anchors": ["include/boost/accumulators/statistics/extended_p_square_quantile.hpp"]}
{"id": "C33", "title": "the weighted P-square quantile estimate is bracketed by the data", "statement": "As C29 for weighted samples with positive weights: markers ordered, outer markers are the extremes, the last marker position is the total weight.  With unit weights it coincides with p_square_quantile.", "quantifier": "every weighted history with positive weights and n >= 5", "why_tests_cant": "Unbounded histories and arbitrary weights.", "anchors": ["include/boost/accumulators/statistics/weighted_p_square_quantile.hpp"]}
{"id": "C34", "title": "the weighted P-square cumulative distribution is a distribution function", "statement": "As C30 for positive weights: non-decreasing values, non-decreasing cumulative weights ending at 1, and agreement with the unweighted version at unit weights.", "quantifier": "every weighted history", "why_tests_cant": "Unbounded histories.", "anchors": ["include/boost/accumulators/statistics/weighted_p_square_cumul_dist.hpp"]}
{"id": "C35", "title": "the median from the P-square cumulative distribution is between the bracketing points", "statement": "with_p_square_cumulative_distribution_median returns a value between the two histogram points that bracket cumulative probability one half, and never reads outside the histogram.", "quantifier": "every history with more than num_cells samples", "why_tests_cant": "All histories.", "anchors": ["include/boost/accumulators/statistics/median.hpp: with_p_square_cumulative_distribution_median_impl"]}
{"id": "C36", "title": "peaks-over-threshold parameters describe exactly the exceedances", "statement": "The fitted parameters are the documented functions of the number, mean and variance of the samples exceeding the threshold, whenever and however often they are extracted.", "quantifier": "every history, every interleaving of extractions", "why_tests_cant": "result() mutates its running sums; only interleavings expose it.", "anchors": ["include/boost/accumulators/statistics/peaks_over_threshold.hpp", "include/boost/accumulators/statistics/weighted_peaks_over_threshold.hpp"]}
{"id": "C37", "title": "POT quantile and tail mean are consistent with the fit", "statement": "pot_quantile at the threshold's own probability returns the threshold, is monotone in p, and pot_tail_mean exceeds pot_quantile on the right tail for 0 < xi < 1 and positive scale.", "quantifier": "every fitted parameter triple, every p in (0,1)", "why_tests_cant": "Real-analytic identity.", "anchors": ["include/boost/accumulators/statistics/pot_quantile.hpp", "include/boost/accumulators/statistics/pot_tail_mean.hpp"]}
{"id": "C38", "title": "every requested feature and every transitive dependency is present exactly once", "statement": "For every list of requested features the set contains an accumulator for each requested feature and for each of its (transitive) dependencies, exactly one per abstract feature, and none other; an explicitly requested implementation wins over one pulled in as a dependency.", "quantifier": "every feature list over every acyclic feature graph", "why_tests_cant": "The combinatorics of feature lists is unbounded.", "anchors": ["include/boost/accumulators/framework/depends_on.hpp: make_accumulator_tuple, insert_feature, insert_dependencies"]}
{"id": "C39", "title": "accumulators are updated after everything they depend on", "statement": "In every accumulator_set the accumulators are visited in an order where each one comes after all accumulators it reads, so that during an update it sees its dependencies already updated with the current sample.", "quantifier": "every feature list, every enumeration order of the feature map", "why_tests_cant": "Order results from a compile-time sort with a partial order; all inputs needed.", "anchors": ["include/boost/accumulators/framework/depends_on.hpp: is_dependent_on, make_accumulator_tuple", "include/boost/accumulators/framework/accumulator_set.hpp: visit"]}
{"id": "C40", "title": "asking for more features never changes the results of the others", "statement": "The result extracted for a feature after any history is the same in every set that contains it with the same implementations of its dependencies, whatever else the set computes and in whatever order features were requested.", "quantifier": "every feature set, every superset, every history", "why_tests_cant": "Quantifies over pairs of sets.", "anchors": ["include/boost/accumulators/framework/accumulator_set.hpp: operator(), extract", "include/boost/accumulators/framework/depends_on.hpp"]}
{"id": "C41", "title": "a dropped accumulator stops, a needed one does not", "statement": "After any sequence of legal drop<Feature>() calls an accumulator keeps accumulating as long as it is itself an undropped requested feature or some still-live accumulator depends on it, and stops as soon as neither holds.", "quantifier": "every dependency graph, every mixture of droppable and plain features, every drop order", "why_tests_cant": "Reference counts over all DAGs and all drop orders.", "anchors": ["include/boost/accumulators/framework/accumulator_set.hpp: drop", "include/boost/accumulators/framework/accumulators/droppable_accumulator.hpp: add_ref_visitor, drop_visitor, droppable_accumulator_base"]}
{"id": "C42", "title": "dropping freezes the value and touches nothing else", "statement": "Once an accumulator is really dropped its own state never changes again, and dropping changes no state other than reference counts.", "quantifier": "every history of pushes and drops", "why_tests_cant": "Interleavings.", "anchors": ["include/boost/accumulators/framework/accumulators/droppable_accumulator.hpp: droppable_accumulator_base"]}
{"id": "C43", "title": "extraction is an observation", "statement": "Extracting any feature any number of times between pushes does not change what any later extraction returns.", "quantifier": "every interleaving of extractions and pushes, every feature with cached results", "why_tests_cant": "Lazily cached results with dirty flags; interleavings unbounded.", "anchors": ["include/boost/accumulators/statistics/density.hpp: result", "include/boost/accumulators/statistics/p_square_cumul_dist.hpp: result", "include/boost/accumulators/statistics/median.hpp", "include/boost/accumulators/statistics/peaks_over_threshold.hpp"]}
{"id": "C44", "title": "serialization round trip", "statement": "Saving an accumulator_set and loading it into a freshly constructed set of the same type and construction arguments gives a set that answers every later extraction, after every later history, like the original.", "quantifier": "every history before and after the save", "why_tests_cant": "All future behaviours must agree.", "anchors": ["include/boost/accumulators/framework/accumulator_set.hpp: serialize", "include/boost/accumulators/statistics/weighted_peaks_over_threshold.hpp: serialize", "include/boost/accumulators/framework/accumulators/droppable_accumulator.hpp"]}
{"id": "C45", "title": "external weights, value and reference accumulators report what they refer to", "statement": "A set with external weights reports exactly the external set's weight statistics; a value accumulator always reports the value given at construction; a reference accumulator always reports the referent's current value.", "quantifier": "every external state, every history of modifications of the referent", "why_tests_cant": "All histories.", "anchors": ["include/boost/accumulators/framework/accumulators/external_accumulator.hpp", "include/boost/accumulators/framework/accumulators/value_accumulator.hpp", "include/boost/accumulators/framework/accumulators/reference_accumulator.hpp", "include/boost/accumulators/framework/depends_on.hpp: to_accumulator"]}
{"id": "C46", "title": "vector samples behave component-wise", "statement": "For std::vector samples of a common dimension, sum, mean, min, max, variance, moments (and weighted forms) are component-wise the scalar statistics of the components; mismatched dimensions violate a precondition.", "quantifier": "every dimension, every history", "why_tests_cant": "Unbounded dimension.", "anchors": ["include/boost/accumulators/numeric/functional/vector.hpp"]}
{"id": "C47", "title": "numeric helpers satisfy their algebra", "statement": "numeric::one is a multiplicative identity and numeric::zero an additive one for every supported type; min_assign/max_assign compute pointwise minimum/maximum; fdiv never truncates integer operands.", "quantifier": "every value of every supported type", "why_tests_cant": "All values.", "anchors": ["include/boost/accumulators/numeric/functional.hpp", "include/boost/accumulators/numeric/functional/complex.hpp: one", "include/boost/accumulators/numeric/functional/vector.hpp"]}
{"id": "C48", "title": "construction with an initial sample only affects additive statistics", "statement": "Constructing a set with sample = s initialises sum to s; it must not bias statistics of later samples such as variance, moments or rolling sums.", "quantifier": "every initial sample, every history", "why_tests_cant": "All initial values and histories.", "anchors": ["include/boost/accumulators/statistics/variance.hpp: variance_impl", "include/boost/accumulators/statistics/moment.hpp", "include/boost/accumulators/statistics/rolling_sum.hpp", "include/boost/accumulators/statistics/rolling_variance.hpp"]}
{"id": "C49", "title": "weighted extended P-square estimates are monotone and reduce to the unweighted ones", "statement": "With m >= 1 probabilities, at least 2m+3 samples and positive weights, weighted extended_p_square(acc) returns m non-decreasing values between the minimum and maximum of the history; its last marker position is the total weight; with unit weights it returns exactly what the unweighted version returns.", "quantifier": "every m >= 1, every list of probabilities, every weighted history with positive weights", "why_tests_cant": "the invariant of the marker positions involves the whole history of weights and every interleaving of cell updates and marker moves", "anchors": ["include/boost/accumulators/statistics/weighted_extended_p_square.hpp: weighted_extended_p_square_impl::operator()"]}
{"id": "C50", "title": "P-square markers move by parabolic interpolation, or linear where that would break the order", "statement": "A sample raises the position of exactly the markers above it. Then each inner marker that is at least one position away from its desired position and has room moves by one position; its new height is the value of the parabola through it and its two neighbours, or of the line to the neighbour on that side if the parabola is not strictly between the neighbouring heights.", "quantifier": "every marker state with increasing positions, every inner marker, every sample", "why_tests_cant": "the published P-square formula is an algebraic identity over all marker positions and heights", "anchors": ["include/boost/accumulators/statistics/p_square_quantile.hpp: p_square_quantile_impl::operator()", "include/boost/accumulators/statistics/extended_p_square.hpp", "include/boost/accumulators/statistics/p_square_cumul_dist.hpp"]}
{"id": "C51", "title": "extended P-square with one probability is the P-square quantile", "statement": "extended_p_square with the single probability p holds, after every history, the same markers and reports the same estimate as p_square_quantile with quantile_probability = p.", "quantifier": "every p, every history", "why_tests_cant": "it relates two separately written implementations on all inputs", "anchors": ["include/boost/accumulators/statistics/extended_p_square.hpp", "include/boost/accumulators/statistics/p_square_quantile.hpp"]}
{"id": "C52", "title": "integer sample types: exact exactly when nothing overflows", "statement": "With samples of a built-in integer type, immediate mean and default variance report the exact mean and variance of every history. Sum, lazy mean, moments, lazy variance, rolling sum, lazy rolling mean and weighted sum are exact when every running total they keep in the sample type is representable; for signed types at least as wide as int anything else is undefined behaviour, for unsigned types and types narrower than int the total is reduced modulo 2^width (moments of unsigned short excepted). The default rolling mean and variance are exact for every history of an unsigned or narrow type, and for wide signed types when samples one window apart differ by a representable amount. Integers pushed into a set of floating samples give exact moments when their powers fit the integer type they were pushed with.", "quantifier": "every standard integer type (8, 16, 32, 64 bits, signed or unsigned), every history of representable samples, every window size and moment order", "why_tests_cant": "overflow depends on the magnitudes and the order of all samples seen so far; a wrapped total looks like a plausible value", "anchors": ["include/boost/accumulators/statistics/sum.hpp", "include/boost/accumulators/statistics/mean.hpp", "include/boost/accumulators/statistics/moment.hpp numeric::pow", "include/boost/accumulators/statistics/variance.hpp", "include/boost/accumulators/statistics/rolling_sum.hpp", "include/boost/accumulators/statistics/rolling_mean.hpp", "include/boost/accumulators/statistics/rolling_moment.hpp", "include/boost/accumulators/statistics/rolling_variance.hpp", "include/boost/accumulators/statistics/weighted_sum.hpp"]}
{"id": "C53", "title": "a dropped feature keeps the value it had", "statement": "Dropping a feature changes no value. Once everything that the value of a feature is computed from has been dropped, that value never changes again, whatever is pushed or dropped later; for the basic statistics it is the textbook value over the samples pushed before the drop. (If something it is computed from is still wanted, the value keeps moving.) An accumulator wrapped so that it caches its result behaves as the bare accumulator while references remain, and from the release of the last one reports the result it had at that moment, through later samples, copies and changed arguments.", "quantifier": "every feature list, enumeration order, history of samples and legal drops; every accumulator and every number of references for the cached result", "why_tests_cant": "the value after a drop depends on which shared dependencies other requests keep alive, and on the whole later history", "anchors": ["include/boost/accumulators/framework/accumulators/droppable_accumulator.hpp droppable_accumulator_base with_cached_result", "include/boost/accumulators/framework/accumulator_set.hpp drop extract", "include/boost/accumulators/framework/depends_on.hpp build_acc_list"]}
{"id": "C54", "title": "every estimator reports in a set what it reports alone", "statement": "Whatever other features an accumulator_set is asked for, in whatever order they are resolved, and whatever is dropped on the way (each drop of a feature requested as droppable, once, other than the few whose drop releases too much, C41), every estimator and rolling statistic (minimum, maximum, densities, P-square quantiles and distributions, medians, tails, tail quantiles and means, tail variate means, peaks over threshold, rolling statistics; weighted or not) that is still needed reports what its code run alone over the same samples reports. Where it builds on a feature that several accumulators can provide, it builds on the one accumulator that provides the feature in this set: that is the only way in which the rest of the set changes it, and it does (pot_tail_mean next to tail_quantile). Hence the properties of C13 to C37 hold of what extract returns from the set.", "quantifier": "every feature list, enumeration order, history of samples and legal drops, every argument of the estimators, every ordered field", "why_tests_cant": "the number of feature combinations is exponential, and an estimator reads other accumulators of the set while a sample is pushed and while a result is extracted", "anchors": ["include/boost/accumulators/framework/accumulator_set.hpp operator() extract", "include/boost/accumulators/framework/depends_on.hpp", "include/boost/accumulators/statistics/density.hpp", "include/boost/accumulators/statistics/tail.hpp", "include/boost/accumulators/statistics/tail_quantile.hpp", "include/boost/accumulators/statistics/tail_mean.hpp", "include/boost/accumulators/statistics/pot_quantile.hpp", "include/boost/accumulators/statistics/pot_tail_mean.hpp"]}
{"id": "C55", "title": "a variance of doubles is not negative", "statement": "With double samples, the default (immediate) variance never compares less than zero, whatever the samples, and is a finite number for up to 2^53 samples of at most 2^450 in magnitude; so error_of<immediate_mean>, which takes its root, is a number from the second sample on. The default weighted variance never compares less than zero when no weight carries a minus sign. (The lazy variance gives no such guarantee, and the weighted variance can become NaN for ever.)", "quantifier": "every sequence of doubles, infinities and NaN included; the finiteness part: every sequence of up to 2^53 samples of magnitude at most 2^450", "why_tests_cant": "rounding depends on every bit of every sample; the failing sequences of the lazy form are a vanishing fraction of all sequences", "anchors": ["include/boost/accumulators/statistics/variance.hpp variance_impl lazy_variance_impl", "include/boost/accumulators/statistics/weighted_variance.hpp weighted_variance_impl", "include/boost/accumulators/statistics/error_of_mean.hpp error_of_mean_impl"]}
{"id": "C56", "title": "samples that are not numbers", "statement": "With double samples, min and max are never NaN and skip NaN samples as if they had not been pushed; no sample is below min or above max, and min (max) is one of the samples unless all of them are NaN or plus (minus) infinity. A single NaN sample makes sum, lazy mean and immediate mean NaN, and the variance from the second sample on, for ever.", "quantifier": "every sequence of doubles, NaN and infinities at any place", "why_tests_cant": "the comparison with NaN is false both ways, so the outcome depends on the direction of each comparison and on the place of the NaN in a history of any length", "anchors": ["include/boost/accumulators/statistics/min.hpp min_impl", "include/boost/accumulators/statistics/max.hpp max_impl", "include/boost/accumulators/statistics/sum.hpp sum_impl", "include/boost/accumulators/statistics/mean.hpp mean_impl immediate_mean_impl", "include/boost/accumulators/statistics/variance.hpp variance_impl", "include/boost/accumulators/numeric/functional.hpp min_assign max_assign"]}
{"id": "C57", "title": "rounding errors of sum and mean of doubles", "statement": "With double samples, a finite sum was computed from finite samples only, and differs from the exact sum by at most ((1+u)^(n-1) - 1) times the sum of the magnitudes, u = 2^-53; samples that are integers whose magnitudes total at most 2^53 are summed exactly. The lazy mean has a relative error of at most (1+u)^n - 1 of the mean magnitude, the immediate mean (1+u)^(3n) - 1, up to subnormal rounding. The immediate mean of samples bounded by a power of two is finite and within the same bound. (A mean may lie outside the range of the samples, the two means may differ, the order of samples matters, and a mean may overflow.)", "quantifier": "every sequence of doubles with a finite result; means: up to 2^53 samples", "why_tests_cant": "the bound is over all sequences of any length; a test sees the error of one sequence", "anchors": ["include/boost/accumulators/statistics/sum.hpp sum_impl", "include/boost/accumulators/statistics/mean.hpp mean_impl immediate_mean_impl"]}
{"id": "C58", "title": "rolling statistics of doubles", "statement": "With double samples of magnitude at most b, a finite rolling sum differs from the exact sum of the window by at most ((1+u)^(2n) - 1) N b, n the number of all samples ever pushed; integers with N b <= 2^53 are summed exactly for ever. A finite rolling sum implies that every sample ever pushed was finite. The default rolling variance is finite and not negative, for fewer than 2^52 samples of magnitude at most 2^400. (Errors and infinities of samples that have left the window stay.)", "quantifier": "every window size, every initial capacity, every sequence of doubles within the stated bounds", "why_tests_cant": "the error accumulates over the whole history, including samples no longer in the window", "anchors": ["include/boost/accumulators/statistics/rolling_sum.hpp rolling_sum_impl", "include/boost/accumulators/statistics/rolling_mean.hpp immediate_rolling_mean_impl", "include/boost/accumulators/statistics/rolling_variance.hpp immediate_rolling_variance_impl"]}
{"id": "C59", "title": "P-square estimates of doubles", "statement": "With double samples of magnitude at most 2^1000 and a probability from 0 to 1, p_square_quantile (and the median built on it) reports, from five samples on, a finite double between the smallest and the largest sample; p_square_cumulative_distribution reports finite heights and fractions, both ascending, from (smallest sample, 1/n) to (largest sample, exactly 1); extended_p_square reports finite quantiles in ascending order within the samples, whatever its probabilities. Rounding never takes a marker past its neighbour and the marker positions stay exact integers. (Near the largest double an estimate may be infinite although all samples are finite.)", "quantifier": "every sequence of up to 2^53 doubles within the bound, every probability, every number of cells or probabilities", "why_tests_cant": "rounding happens in every step of an adaptive algorithm; an overshoot would need a rare combination of heights and positions", "anchors": ["include/boost/accumulators/statistics/p_square_quantile.hpp p_square_quantile_impl", "include/boost/accumulators/statistics/p_square_cumul_dist.hpp p_square_cumulative_distribution_impl", "include/boost/accumulators/statistics/extended_p_square.hpp extended_p_square_impl"]}
{"id": "C60", "title": "Looking at a set does not change what it reports later", "statement": "However often and in whatever order features are extracted between samples and drops, each later extraction from an accumulator_set returns what it would have returned had the set never been looked at before: results that density, p_square_cumulative_distribution and the median over it keep between samples are never stale, and the sorting a tail does on extraction does not change which samples it holds. What accompanies the samples of a tail (variates, weights) is covered when no two samples are equal. Exceptions in the code: the median over a density and peaks over threshold (their extraction changes them), accumulators that keep a result and are dropped, and equal samples with different variates.", "quantifier": "every set of features of the library that compiles, every sequence of samples, drops and extractions in any interleaving", "why_tests_cant": "a stale cache shows only for particular interleavings of samples, drops and extractions of several features that share accumulators", "anchors": ["include/boost/accumulators/framework/accumulator_set.hpp extract_result", "include/boost/accumulators/statistics/density.hpp result", "include/boost/accumulators/statistics/p_square_cumul_dist.hpp result", "include/boost/accumulators/statistics/median.hpp result", "include/boost/accumulators/statistics/tail.hpp result", "include/boost/accumulators/statistics/peaks_over_threshold.hpp result"]}
{"id": "C61", "title": "Tails and tail quantiles of doubles", "statement": "With double samples that are not NaN (infinities and signed zeros included), tail<left|right> holds the most extreme samples, whatever the order of arrival and extraction. tail_quantile returns a sample whose rank is at least 1, at most the number of samples, and at most one off the exact rank of the probability (on the left never above it); it is NaN exactly when that rank is not below the size of the tail. The tail mean is the mean, summed in double precision, of that many most extreme samples, and for at most 2^40 samples of magnitude at most 2^k (-900 <= k <= 900) it is finite and within 2(r+1)*2^-53*2^k of their exact mean, r being their number. In the same setting with -200 <= k <= 200 the right coherent tail mean is finite and within 14*r*2^-53*2^k of its documented formula, evaluated exactly with that rank. (The exact rank itself is not always reached: n*p is rounded. A NaN sample in a tail of one is never displaced.)", "quantifier": "every history of pushes and extractions of doubles, every cache size, side and probability, up to 2^52 samples", "why_tests_cant": "whether n*p rounds across an integer depends on the particular count and probability", "anchors": ["include/boost/accumulators/statistics/tail.hpp tail_impl", "include/boost/accumulators/statistics/tail_quantile.hpp tail_quantile_impl", "include/boost/accumulators/statistics/tail_mean.hpp non_coherent_tail_mean_impl", "include/boost/accumulators/statistics/tail_mean.hpp coherent_tail_mean_impl"]}
{"id": "C62", "title": "Histograms of doubles", "statement": "With double samples of magnitude at most 2^960, density reports, once its cache is full: bins at ascending finite positions, the first regular one at the smallest cached sample, each within rounding error of the equally spaced position; for each bin the exact number of samples that fall into it (compared with the reported positions), divided by the number of samples and rounded once, a number from 0 to 1; every sample in exactly one bin; and fractions whose sum differs from 1 by at most one unit of roundoff. (The last position need not be the largest cached sample: that sample may be in the last bin, or smaller ones in the overflow bin. If the spread overflows everything is in one bin.)", "quantifier": "every sequence of up to 2^53 doubles within the bound, every cache size and number of bins, extractions anywhere", "why_tests_cant": "a rounded bin position may fall on either side of a sample", "anchors": ["include/boost/accumulators/statistics/density.hpp density_impl"]}
{"id": "C63", "title": "Accuracy of variances and covariances of doubles", "statement": "For up to 2^40 double samples of magnitude at most b (2^-450 <= b <= 2^440), variance is finite and differs from the exact variance of the samples by at most 256*n*u*b^2 (u = 2^-53), lazy_variance by at most 40*n*u*b^2; covariance with variates of magnitude at most c by at most 256*n*u*b*c. Pushing the samples in another order, choosing the lazy instead of the immediate implementation, or exchanging samples and variates therefore changes the result by at most the sum of the two bounds.", "quantifier": "every sequence of up to 2^40 doubles (pairs of doubles) within the bounds, every order", "why_tests_cant": "rounding errors accumulate over the whole history; a test sees the error of the histories it pushes", "anchors": ["include/boost/accumulators/statistics/variance.hpp variance_impl, lazy_variance_impl", "include/boost/accumulators/statistics/covariance.hpp covariance_impl", "include/boost/accumulators/statistics/mean.hpp mean_impl, immediate_mean_impl"]}
{"id": "C64", "title": "Accuracy of weighted sums and means of doubles", "statement": "weighted_sum of n double samples and weights (any sign), when finite, differs from the exact sum of products by at most ((1+u)^n-1)*sum|x*w| + (1+u)^n*n*2^-1075; sum_of_weights of non-negative weights by at most ((1+u)^(n-1)-1) times itself. For up to 2^40 samples of magnitude at most b and weights from 0 to c (2^-450 <= b,c <= 2^440) with a total weight of at least 2^-450, weighted_mean is finite and differs from the exact weighted mean by at most 8*n*u*b, and the immediate weighted mean by at most 24*n*u*b provided the first weight is at least 2^-450, so order and implementation change the result by at most the sum of the bounds. A first weight of zero however makes the immediate weighted mean NaN for good (finding).", "quantifier": "every history of up to 2^40 pairs (sample, weight) of doubles within the bounds, every order", "why_tests_cant": "rounding errors accumulate over the whole history; a test sees the error of the histories it pushes", "anchors": ["include/boost/accumulators/statistics/weighted_mean.hpp weighted_mean_impl, immediate_weighted_mean_impl", "include/boost/accumulators/statistics/weighted_sum.hpp weighted_sum_impl", "include/boost/accumulators/statistics/sum.hpp tag::sum_of_weights"]}
{"id": "C65", "title": "Weighted P-square estimates of doubles stay within the samples", "statement": "For up to 2^40 double samples of magnitude at most 2^1000 and weights of any sign (including zero) of magnitude at most 2^900, and probabilities in [0,1]: once there are enough samples to fill the markers (5, b+1, 2m+3), weighted_p_square_quantile, weighted_p_square_cumulative_distribution and weighted_extended_p_square succeed, every height is a finite double, the heights and the estimates of several probabilities are in ascending order, the outermost heights are the smallest and largest sample and every estimate is between them, however the marker positions were rounded.", "quantifier": "every history of up to 2^40 pairs (sample, weight) of doubles within the bounds, every probability or set of probabilities, every number of cells", "why_tests_cant": "each adjustment of a marker rounds four quotients and products and the next one builds on it; a test sees the histories it pushes, with the weights it chose", "anchors": ["include/boost/accumulators/statistics/weighted_p_square_quantile.hpp weighted_p_square_quantile_impl", "include/boost/accumulators/statistics/weighted_p_square_cumul_dist.hpp weighted_p_square_cumulative_distribution_impl", "include/boost/accumulators/statistics/weighted_extended_p_square.hpp weighted_extended_p_square_impl"]}
{"id": "C66", "title": "The unit of the weights does not matter", "statement": "Multiplying all weights of a history by the same positive constant does not change any normalised weighted result: the fractions of the weighted density, the quantile, mean and variate means of a weighted tail, the peaks-over-threshold fit, and the weighted P-square quantiles and distributions (for means, variances and moments see C10).", "quantifier": "every history of samples and weights, every positive factor, every side, level, cache size, number of bins and probability", "why_tests_cant": "a test compares two scales of one history; that a scale is harmless must hold for all of them, and the P-square estimators only go wrong below a certain total weight", "anchors": ["include/boost/accumulators/statistics/weighted_p_square_quantile.hpp weighted_p_square_quantile_impl", "include/boost/accumulators/statistics/weighted_extended_p_square.hpp", "include/boost/accumulators/statistics/weighted_p_square_cumul_dist.hpp", "include/boost/accumulators/statistics/weighted_density.hpp", "include/boost/accumulators/statistics/weighted_tail_quantile.hpp", "include/boost/accumulators/statistics/weighted_tail_mean.hpp", "include/boost/accumulators/statistics/weighted_tail_variate_means.hpp", "include/boost/accumulators/statistics/weighted_peaks_over_threshold.hpp"]}
{"id": "C67", "title": "The unit of the samples does not matter", "statement": "Measuring all samples in another unit, x becoming a·x + b, changes every result as it should: means, quantiles, medians, tail means, bin borders and thresholds are converted like samples, variances and covariances are multiplied by the square (product) of the factors, fractions, distribution values and the shape of the peaks-over-threshold fit stay the same; a negative factor exchanges left and right tails and p and 1 - p.", "quantifier": "every history of samples (and weights), every factor and offset (positive factors for P-square and density), every level, cache size, number of bins, side and list of probabilities", "why_tests_cant": "a test converts one data set with one factor; that no branch, threshold or marker move depends on the unit must hold for all", "anchors": ["include/boost/accumulators/statistics/p_square_quantile.hpp p_square_quantile_impl", "include/boost/accumulators/statistics/p_square_cumul_dist.hpp", "include/boost/accumulators/statistics/extended_p_square.hpp", "include/boost/accumulators/statistics/extended_p_square_quantile.hpp", "include/boost/accumulators/statistics/density.hpp", "include/boost/accumulators/statistics/tail_quantile.hpp", "include/boost/accumulators/statistics/tail_mean.hpp", "include/boost/accumulators/statistics/peaks_over_threshold.hpp", "include/boost/accumulators/statistics/variance.hpp", "include/boost/accumulators/statistics/covariance.hpp"]}
{"id": "C68", "title": "A result does not change after it was obtained", "statement": "A result obtained from a set stays what it was, whatever is pushed into the set or extracted from it later; results that are ranges are views and satisfy this only in part: a density or cumulative distribution range shows the last extracted histogram, a tail range taken from a full cache shows the present tail, a rolling window range shows the window and at most the samples up to one beyond the window size, a range of tail variate means is readable until the next extraction.", "quantifier": "every history of pushes and extractions before and after the result was obtained, every cache size, window size, number of bins, comparison and implementation of the heap algorithms", "why_tests_cant": "a test uses a range at once; what it shows after an arbitrary later history, and when it dangles, is not visible in any single run", "anchors": ["include/boost/accumulators/statistics/density.hpp result", "include/boost/accumulators/statistics/p_square_cumul_dist.hpp result", "include/boost/accumulators/statistics/extended_p_square.hpp result", "include/boost/accumulators/statistics/tail.hpp result, make_tail_range", "include/boost/accumulators/statistics/tail_variate.hpp result", "include/boost/accumulators/statistics/rolling_window.hpp rolling_window_impl::result", "include/boost/accumulators/statistics/tail_variate_means.hpp result"]}
{"id": "C69", "title": "Memory does not grow with the number of samples", "statement": "What a set stores does not depend on how many samples it has seen: the elements of all its containers number at most a sum of amounts fixed by the requested features and the constructor's arguments (cache sizes, window size, bins, cells, probabilities), and no accumulator is added or removed; extraction does not add any.", "quantifier": "every list of features, every constructor argument, every sequence of samples and drops (and extractions), every sample type and every in-place heap algorithm", "why_tests_cant": "a test sees a few thousand samples; that nothing accumulates must hold for every length of the history", "anchors": ["include/boost/accumulators/framework/accumulator_set.hpp operator()", "include/boost/accumulators/statistics/tail.hpp operator()", "include/boost/accumulators/statistics/rolling_window.hpp", "include/boost/accumulators/statistics/density.hpp", "include/boost/accumulators/statistics/p_square_cumul_dist.hpp", "include/boost/accumulators/statistics/extended_p_square.hpp"]}
{"id": "C70", "title": "Valarray samples, and vectors or valarrays of integers", "statement": "A set whose samples are std::valarrays of a floating type answers for every statistic what the set of std::vectors answers as long as all samples have the length of the initial one, and is undefined as soon as one has not. With integer elements sum and mean are defined exactly when all lengths agree and no component's sum overflows, and are then the scalar results of the components; the immediate mean never overflows.", "quantifier": "every sample type, every dimension, every initial sample, every history of valarrays of any lengths and of weights", "why_tests_cant": "test/valarray.cpp feeds three samples of equal length whose elements are all equal", "anchors": ["include/boost/accumulators/numeric/functional/valarray.hpp operator+, operator*, operator/, promote, fdiv", "include/boost/accumulators/numeric/functional/vector.hpp", "include/boost/accumulators/statistics/mean.hpp", "include/boost/accumulators/statistics/weighted_mean.hpp"]}
{"id": "C71", "title": "Inequalities between statistics", "statement": "In exact arithmetic the statistics of one set fit together: every mean lies between the least and the greatest sample; every variance is at least 0, at most (max - mean)(mean - min), and 0 exactly when all samples are equal; the square of a covariance is at most the product of the variances; the kurtosis is at least the square of the skewness less 2. The same holds of weighted samples whose weights are not negative, and the means and variances of the rolling window obey it for the samples still in the window.", "quantifier": "every ordered field, every history of samples, variates and non-negative weights with non-zero partial sums, every window", "why_tests_cant": "the tests compare single statistics of fixed histories with expected numbers; an inequality between two statistics has to hold on every history", "anchors": ["include/boost/accumulators/statistics/mean.hpp", "include/boost/accumulators/statistics/variance.hpp", "include/boost/accumulators/statistics/covariance.hpp", "include/boost/accumulators/statistics/skewness.hpp", "include/boost/accumulators/statistics/kurtosis.hpp", "include/boost/accumulators/statistics/weighted_variance.hpp", "include/boost/accumulators/statistics/rolling_variance.hpp"]}
{"id": "C72", "title": "Samples that are all equal", "statement": "When all samples have one value c, the mean is c and variance and covariance are 0 in exact arithmetic, weighted or not, and for the rolling window as soon as it holds nothing else; every P-square quantile, every tail quantile and every tail mean is c, skewness and kurtosis are 0/0. In IEEE double precision minimum, maximum and the P-square quantiles are exactly c, mean and variance are exact if c is an integer whose multiples stay within 2^53; in general they are not, and skewness and kurtosis can be anything.", "quantifier": "every value, every number of samples, all variates and weights, every window, cache and probability", "why_tests_cant": "degenerate input is not in the test suite, and the failures in double precision depend on the value and the number of samples", "anchors": ["include/boost/accumulators/statistics/mean.hpp", "include/boost/accumulators/statistics/variance.hpp", "include/boost/accumulators/statistics/skewness.hpp", "include/boost/accumulators/statistics/kurtosis.hpp", "include/boost/accumulators/statistics/p_square_quantile.hpp", "include/boost/accumulators/statistics/extended_p_square.hpp", "include/boost/accumulators/statistics/tail_quantile.hpp", "include/boost/accumulators/statistics/rolling_variance.hpp"]}
{"id": "C73", "title": "A higher probability never gives a smaller quantile", "statement": "After every history, quantile(acc, p) <= quantile(acc, q) and the same of the tail mean whenever p <= q and both are defined: for tail_quantile and the non-coherent tail mean of either side, with and without (non-negative) weights, and for extended_p_square_quantile. A tail that suffices for some share of the samples suffices for every smaller share, and the tail mean is at least as extreme as the quantile of the same probability. (It does not hold of the coherent tail mean, of quadratic interpolation, and of P-square estimators in separate sets.)", "quantifier": "every history of samples (and weights), every cache size, both tails, every pair of probabilities", "why_tests_cant": "a test extracts a few probabilities after one history", "anchors": ["include/boost/accumulators/statistics/tail_quantile.hpp", "include/boost/accumulators/statistics/tail_mean.hpp", "include/boost/accumulators/statistics/weighted_tail_quantile.hpp", "include/boost/accumulators/statistics/weighted_tail_mean.hpp", "include/boost/accumulators/statistics/extended_p_square_quantile.hpp", "include/boost/accumulators/statistics/p_square_quantile.hpp"]}
{"id": "C74", "title": "Statistics of complex samples", "statement": "With std::complex<T> samples (and weights of type T), sum, Kahan sum, lazy and immediate mean, weighted sum and means, rolling sum and lazy rolling mean are, part by part, exactly what two sets fed with the real and with the imaginary parts give, whatever the arithmetic of T. In exact arithmetic moment<N> is the average of the complex N-th powers, and the lazy, immediate and weighted variance are Var(Re) - Var(Im) + 2i Cov(Re, Im). (So the variance does not measure the spread: it can vanish or be negative for samples that differ.)", "quantifier": "every history of complex samples and weights, every window size, every order, every arithmetic of the parts (doubles included) for the part-by-part claims", "why_tests_cant": "no test of the library uses complex samples; the claim ranges over all histories", "anchors": ["include/boost/accumulators/numeric/functional/complex.hpp", "include/boost/accumulators/statistics/mean.hpp", "include/boost/accumulators/statistics/variance.hpp", "include/boost/accumulators/statistics/moment.hpp", "include/boost/accumulators/statistics/weighted_variance.hpp", "include/boost/accumulators/statistics/rolling_sum.hpp", "doc/accumulators.qbk"]}
{"id": "C75", "title": "Weighted tails of doubles", "statement": "For double samples (infinities included) with weights from 0 to c, at most 2^40 of them, the weighted tail quantile is the sample where the exact running weight, taken from the extreme end, reaches a threshold that differs from total weight times probability by at most 8 n u of the total weight; the non-coherent weighted tail mean is the weighted mean of exactly those samples, and accurate to 8 m u times the bound on the samples; both are NaN only if the cached samples do not carry more than that threshold. (Exactly the weighted quantile is not reported: rounding of the running weight can move it by a sample, and a threshold that underflows to 0 makes it read before the first sample.)", "quantifier": "every history, cache size, side, probability and correct heap", "why_tests_cant": "tests use few samples and weights whose sums are exact; the rounding error depends on the whole history", "anchors": ["include/boost/accumulators/statistics/weighted_tail_quantile.hpp: weighted_tail_quantile_impl", "include/boost/accumulators/statistics/weighted_tail_mean.hpp: non_coherent_weighted_tail_mean_impl", "include/boost/accumulators/statistics/tail.hpp", "include/boost/accumulators/statistics/tail_variate.hpp"]}
{"id": "C76", "title": "Weighted histograms of doubles", "statement": "For double samples (at most 2^960 in magnitude) with weights from 0 to c, once the cache is full: nothing is undefined; the bins begin at ascending finite positions, the first at the smallest cached sample, each within rounding error of where it should; the fraction of every bin is from 0 to 1 and equals the exact share of the weight falling into it up to a relative error 4 n u (and an underflow unit); the exact shares add up to 1 and the reported fractions to 1 within 4 n u.", "quantifier": "every history of weighted pushes and extractions, every cache size and number of bins", "why_tests_cant": "the existing test compares two fractions of one random sample; rounding depends on the whole history", "anchors": ["include/boost/accumulators/statistics/weighted_density.hpp: weighted_density_impl", "include/boost/accumulators/statistics/sum.hpp"]}
{"id": "C77", "title": "What an exception leaves behind", "statement": "If one accumulator throws while a sample is pushed and the caller catches the exception and goes on, then every feature that depends only on accumulators visited before it behaves from then on as if the push had succeeded, and every feature that depends only on accumulators visited after it as if the sample had never been pushed (if the throwing accumulator leaves its own state alone, features depending only on it and later ones too). Count lies between the number of successful pushes and the number of pushes. A push that does not throw is an ordinary push. (The push is not undone: a feature that depends on both, such as the mean, is wrong from then on.)", "quantifier": "every list of features, every enumeration order of the feature map, every history of pushes, exceptions and drops, every point at which an accumulator may throw, every further samples", "why_tests_cant": "no test throws; the claim ranges over all points of interruption and all histories", "anchors": ["include/boost/accumulators/framework/accumulator_set.hpp: accumulator_set::operator(), visit", "include/boost/accumulators/framework/depends_on.hpp: make_accumulator_tuple", "include/boost/accumulators/framework/accumulators/droppable_accumulator.hpp"]}
{"id": "C78", "title": "Copies of sets, and several sets in one program", "statement": "In any program that creates, copies, assigns, destroys and feeds several accumulator sets, each set answers for its own life alone: what was pushed and dropped since it was made, a copy (or an assigned set) having in addition the life of the original up to that moment. A copy given samples and drops answers what the original would have answered had they been given to it, the original does not notice, and vice versa. A set with external features held by reference takes them from the very set that was named when the first of its copies was made. (Copying both of a pair of such sets therefore does not give a pair.)", "quantifier": "every program of such statements, every list of features, every library of accumulators", "why_tests_cant": "aliasing between copies can show after any interleaving of statements", "anchors": ["include/boost/accumulators/framework/accumulator_set.hpp: accumulator_set", "include/boost/accumulators/framework/depends_on.hpp: accumulator_wrapper", "include/boost/accumulators/framework/accumulators/reference_accumulator.hpp", "include/boost/accumulators/framework/accumulators/external_accumulator.hpp", "include/boost/accumulators/framework/accumulators/droppable_accumulator.hpp: droppable_accumulator_base"]}
{"id": "C79", "title": "Weighted variances of IEEE doubles are accurate", "statement": "For up to 2^40 double samples of magnitude at most b with weights from 0 to c, the lazy weighted variance is finite and differs from the exact weighted variance by at most 68 n u b^2, however uneven the weights (u = 2^-53). The immediate one differs by at most 400 n u b^2 provided the first weight is not tiny and no weight exceeds r times the total before it, with r n u at most 1/1000; a weight of 2^55 times the total before it leaves it infinite or NaN for good. Hence order and choice of implementation matter no more than the two bounds together.", "quantifier": "every history of (sample, weight) of up to 2^40 doubles within the stated bounds, every order", "why_tests_cant": "rounding errors accumulate over histories no test enumerates, and the worst case depends on the order and on the ratios of weights", "anchors": ["include/boost/accumulators/statistics/weighted_variance.hpp: lazy_weighted_variance_impl, weighted_variance_impl", "include/boost/accumulators/statistics/weighted_moment.hpp", "include/boost/accumulators/statistics/weighted_mean.hpp"]}
{"id": "C80", "title": "Weights of one change nothing, to the last bit", "statement": "A weighted set whose samples all get the weight 1 reports the same double, bit for bit, as the unweighted set with the same samples: mean, compensated sum, moments of every order, lazy and immediate variance, skewness, kurtosis, covariance, histogram, median read from the histogram, tail and tail mean; also for NaN, infinities and signed zeros where the tail is not involved. The tail quantile agrees unless its rank equals the number of cached samples, where the unweighted one is NaN and the weighted one is the last cached sample.", "quantifier": "every list of doubles (up to 2^53 of them where the count is divided by), every interleaving of pushes and extractions, every cache size and probability", "why_tests_cant": "equality to the last bit over all histories; agreement up to a tolerance on a few samples does not show it", "anchors": ["include/boost/accumulators/statistics/weighted_mean.hpp", "include/boost/accumulators/statistics/weighted_variance.hpp", "include/boost/accumulators/statistics/weighted_density.hpp", "include/boost/accumulators/statistics/weighted_tail_quantile.hpp", "include/boost/accumulators/statistics/tail_quantile.hpp"]}
{"id": "C81", "title": "Tail statistics are measures of risk", "statement": "If each sample of one history is at most the corresponding sample of another, the tail quantile, the non-coherent and the coherent tail mean of the first are at most those of the second (or both are NaN). If each sample of a third history is the sum of the corresponding samples of the other two, its non-coherent tail mean is no worse than the sum of the other two (not above it in the right tail, not below it in the left tail), and so is the coherent tail mean of the right tail. The quantile and the coherent tail mean of the left tail are not subadditive in this sense; the P-square median is not monotone.", "quantifier": "every pair or triple of histories of equal length, related sample by sample; every order of pushes and extractions, cache size, probability and heap implementation", "why_tests_cant": "a statement about all pairs of histories; a violation needs a particular combination of ties, cache size and rank", "anchors": ["include/boost/accumulators/statistics/tail_mean.hpp: coherent_tail_mean_impl, non_coherent_tail_mean_impl", "include/boost/accumulators/statistics/tail_quantile.hpp", "include/boost/accumulators/statistics/tail.hpp", "include/boost/accumulators/statistics/p_square_quantile.hpp"]}
{"id": "C82", "title": "Raising samples never lowers sums and means of doubles", "statement": "If no sample of a second history of doubles is below its counterpart in the first, then its sum, mean and immediate mean are not below those of the first, whatever is rounded or overflows on the way and also with infinities and NaN; so for the weighted sum, weighted mean and immediate weighted mean with the same weights, none below zero; for the rolling sum and lazy rolling mean if the raised samples are still in the window; and for minimum and maximum of samples that are numbers. The default rolling mean does not have this property, and neither has the rolling sum for samples that have left the window.", "quantifier": "every pair of histories of doubles of equal length, related sample by sample; every window size", "why_tests_cant": "a statement about all pairs of histories; a violation is a matter of one unit in the last place", "anchors": ["include/boost/accumulators/statistics/sum.hpp", "include/boost/accumulators/statistics/mean.hpp", "include/boost/accumulators/statistics/weighted_mean.hpp", "include/boost/accumulators/statistics/rolling_sum.hpp", "include/boost/accumulators/statistics/rolling_mean.hpp: immediate_rolling_mean_impl", "include/boost/accumulators/statistics/min.hpp", "include/boost/accumulators/statistics/max.hpp"]}
{"id": "C83", "title": "Weights are a measure", "statement": "Two weighted histories that give the same total weight to every value (samples split, merged, reordered, or of weight zero) have the same sum of weights, weighted sum, mean, moments, lazy variance, skewness and kurtosis; if every prefix has weight also the same immediate mean, variance and covariance; the same histogram if the cached samples are the same; and the same tail quantile, whatever the cache sizes, whenever both have one. The weighted tail mean, histograms with other cached samples, the P-square median and quantiles outside the cache do tell such histories apart.", "quantifier": "every two weighted histories with equal total weights per value; exact arithmetic", "why_tests_cant": "a statement about all pairs of histories that agree as measures, not about particular ones", "anchors": ["include/boost/accumulators/statistics/weighted_sum.hpp", "include/boost/accumulators/statistics/weighted_moment.hpp", "include/boost/accumulators/statistics/weighted_variance.hpp", "include/boost/accumulators/statistics/weighted_covariance.hpp", "include/boost/accumulators/statistics/weighted_density.hpp", "include/boost/accumulators/statistics/weighted_tail_quantile.hpp", "include/boost/accumulators/statistics/weighted_tail_mean.hpp"]}
{"id": "C84", "title": "Doubles in a mirror", "statement": "Negating all samples of a history of doubles negates the sum, Kahan sum, means, odd moments and skewness and leaves variances, even moments and kurtosis as they are, bit for bit up to the sign of zero, whatever is rounded or overflows on the way and also with infinities and NaN; so with weights and for rolling windows; negating samples or variates negates covariances, negating both leaves them; the smallest sample becomes the largest, and the left tail becomes the right tail, with the same variates in the same order. The sign of a zero among the samples never matters for these results.", "quantifier": "every history of doubles, every list of weights, every window and cache size, every order of moments, every heap algorithm that only compares", "why_tests_cant": "a statement about all pairs of histories; a biased rounding or an asymmetric branch shows only as one unit in the last place", "anchors": ["include/boost/accumulators/statistics/sum.hpp", "include/boost/accumulators/statistics/sum_kahan.hpp", "include/boost/accumulators/statistics/mean.hpp", "include/boost/accumulators/statistics/variance.hpp", "include/boost/accumulators/statistics/moment.hpp", "include/boost/accumulators/statistics/skewness.hpp", "include/boost/accumulators/statistics/kurtosis.hpp", "include/boost/accumulators/statistics/covariance.hpp", "include/boost/accumulators/statistics/weighted_variance.hpp", "include/boost/accumulators/statistics/rolling_mean.hpp", "include/boost/accumulators/statistics/rolling_variance.hpp", "include/boost/accumulators/statistics/tail.hpp", "include/boost/accumulators/statistics/min.hpp", "include/boost/accumulators/statistics/max.hpp"]}
{"id": "C85", "title": "Doubles in another unit", "statement": "Samples multiplied by a power of two give results multiplied by exactly the matching power: sums, means and errors of means by 2^e, variances by 2^2e, the N-th moment by 2^Ne, covariances by the product for samples and variates, skewness and kurtosis by nothing, weighted sums also by the unit of the weights and no other weighted result by it. For sums and Kahan sums it is enough that both results are finite; for the others, that no operation a result depends on overflowed, was invalid or rounded a number other than zero to 2^-1022 or less. Rolling sums, means, moments and lazy variances likewise. Tails keep the same samples in the same order, and minimum and maximum are those samples, at every scale.", "quantifier": "every history of finite doubles, every exponent for samples, variates and weights, every window and cache size, every order of moments", "why_tests_cant": "a statement about all pairs of histories and all exponents; a hidden absolute tolerance or constant shows only at some scales", "anchors": ["include/boost/accumulators/statistics/sum.hpp", "include/boost/accumulators/statistics/sum_kahan.hpp", "include/boost/accumulators/statistics/mean.hpp", "include/boost/accumulators/statistics/variance.hpp", "include/boost/accumulators/statistics/moment.hpp", "include/boost/accumulators/statistics/skewness.hpp", "include/boost/accumulators/statistics/kurtosis.hpp", "include/boost/accumulators/statistics/error_of_mean.hpp", "include/boost/accumulators/statistics/covariance.hpp", "include/boost/accumulators/statistics/weighted_mean.hpp", "include/boost/accumulators/statistics/weighted_variance.hpp", "include/boost/accumulators/statistics/weighted_covariance.hpp", "include/boost/accumulators/statistics/rolling_mean.hpp", "include/boost/accumulators/statistics/rolling_moment.hpp", "include/boost/accumulators/statistics/tail.hpp"]}
{"id": "C86", "title": "Named arguments", "statement": "Every accumulator of a set gets the value written for its keyword, whatever the order of the arguments and whatever else is passed; a first argument without a name is the sample, in any set. Constructor parameters reach the accumulators they are meant for and no others; quantile_probability defaults to one half in the constructor and has no default in a question. Arguments that no accumulator of the set looks up have no effect. A program does not compile if some accumulator of the set lacks an argument, a keyword is given twice, or any argument but the first has no name.", "quantifier": "every set of library features, weighted or not, every list of up to fifteen arguments of the constructor, of each call and of the question, every sequence of samples and drops", "why_tests_cant": "the combinations of features, keywords and orders are unbounded", "anchors": ["include/boost/accumulators/framework/accumulator_set.hpp", "include/boost/accumulators/framework/extractor.hpp", "include/boost/accumulators/framework/parameters/sample.hpp", "include/boost/accumulators/framework/parameters/weight.hpp", "include/boost/accumulators/statistics/variates/covariate.hpp", "include/boost/accumulators/statistics/parameters/quantile_probability.hpp", "include/boost/accumulators/statistics/rolling_window.hpp", "include/boost/accumulators/statistics/density.hpp", "include/boost/accumulators/statistics/tail.hpp", "include/boost/accumulators/accumulators_fwd.hpp"]}
{"id": "C87", "title": "Parts and the whole", "statement": "The results of one set that got all samples follow from the results of two sets that got a part each, so that a stream may be split among sets: sums and sums of weights add; means and moments are averages weighted by the counts (or sums of weights); variance and covariance are that average plus the term from the distance of the means; skewness and kurtosis follow from count, mean, variance, skewness and kurtosis of the parts; minimum and maximum are those of the parts; and a tail of the same cache size that is given the tails of the parts is the tail of the whole. Lazy and immediate accumulators alike, in exact arithmetic.", "quantifier": "every two non-empty histories over any field (tails and extremes: any order), every order of moments, every weights without vanishing partial sums, every cache size and heap implementation", "why_tests_cant": "a relation between three runs, for all pairs of histories", "anchors": ["include/boost/accumulators/statistics/mean.hpp", "include/boost/accumulators/statistics/variance.hpp", "include/boost/accumulators/statistics/moment.hpp", "include/boost/accumulators/statistics/skewness.hpp", "include/boost/accumulators/statistics/kurtosis.hpp", "include/boost/accumulators/statistics/covariance.hpp", "include/boost/accumulators/statistics/weighted_mean.hpp", "include/boost/accumulators/statistics/weighted_variance.hpp", "include/boost/accumulators/statistics/weighted_covariance.hpp", "include/boost/accumulators/statistics/min.hpp", "include/boost/accumulators/statistics/max.hpp", "include/boost/accumulators/statistics/tail.hpp"]}
{"id": "C88", "title": "Accuracy of moments of doubles", "statement": "For up to 2^40 double samples of magnitude at most b = 2^k with b^N between 2^-900 and 2^900, moment<N> is finite, at most b^N in magnitude and differs from the exact moment of the samples by at most 2*(n+N)*u*b^N (u = 2^-53); the order of the samples matters no more than twice that. weighted_moment<N> with weights from 0 to 2^j differs by at most 4*(n+N)*u*b^N. Moments of integers are rounded only by the final division while the magnitudes of the powers sum to at most 2^53. moment<1> is the lazy mean bit for bit, and moments of even order are never negative, whatever the samples.", "quantifier": "every order N >= 1 and every non-empty history of doubles (with weights) in the stated range; the last two for all histories of doubles including infinities and NaN", "why_tests_cant": "rounding errors of every history and every order of moments", "anchors": ["include/boost/accumulators/statistics/moment.hpp:numeric::pow", "include/boost/accumulators/statistics/moment.hpp:moment_impl", "include/boost/accumulators/statistics/weighted_moment.hpp:weighted_moment_impl"]}
{"id": "C89", "title": "Accuracy of rolling statistics of doubles", "statement": "After n <= 2^40 double samples of magnitude at most 2^k the rolling statistics over a window of N samples are finite and close to their exact values over the last N samples, however often the window has moved: the default rolling mean within 8*n*u*2^k, the lazy rolling mean within 5*n*u*2^k and rolling_moment<M> within 4*(n+M)*u*2^(k*M), and, with c >= 2 samples in the window, the default rolling variance within 120*n^2/(c-1)*u*2^(2k) and the lazy rolling variance within 55*n*u*2^(2k) of the unbiased sample variance (u = 2^-53). Until the window is full the lazy rolling mean and rolling moments are bit for bit the lazy mean and the moment of all samples.", "quantifier": "every window size, order and history of doubles in the stated range; the last sentence for all histories including infinities and NaN", "why_tests_cant": "rounding errors accumulate over the whole history, not just the window, for every history", "anchors": ["include/boost/accumulators/statistics/rolling_mean.hpp:immediate_rolling_mean_impl", "include/boost/accumulators/statistics/rolling_mean.hpp:lazy_rolling_mean_impl", "include/boost/accumulators/statistics/rolling_moment.hpp:rolling_moment_impl", "include/boost/accumulators/statistics/rolling_variance.hpp:immediate_rolling_variance_impl", "include/boost/accumulators/statistics/rolling_variance.hpp:lazy_rolling_variance_impl"]}
{"id": "C90", "title": "Accuracy of errors of means of doubles", "statement": "error_of<immediate_mean> of 2 to 2^40 double samples of magnitude at most b (2^-450 <= b <= 2^440) is finite and differs from the exact standard error e of the samples by at most b/2^21, however many samples there are, and by at most 520*u*b^2/e (u = 2^-53). So does error_of<mean> if the exact variance of the n samples is at least 40*n*u*b^2.", "quantifier": "every history of at least two doubles in the stated range", "why_tests_cant": "rounding errors of every history, magnified without bound by the root near zero", "anchors": ["include/boost/accumulators/statistics/error_of_mean.hpp:error_of_mean_impl", "include/boost/accumulators/statistics/variance.hpp:variance_impl", "include/boost/accumulators/statistics/variance.hpp:lazy_variance_impl"]}
{"id": "C91", "title": "Accuracy of skewness and kurtosis of doubles", "statement": "For 1 to 2^40 double samples of magnitude at most 2^k (-200 <= k <= 200) whose exact variance V is at least 1000*n*u*2^(2k) (n the number of samples, u = 2^-53), skewness and kurtosis are finite; the skewness differs from the exact one by at most 170*n*u*2^(3k)/V^(3/2), and the kurtosis from the exact one by at most 450*n*u*2^(4k)/V^2. If V is at least a quarter of 2^(2k), they are right to 1360*n*u and 7200*n*u. With weights from 0 to 2^j (-450 <= j <= 450) of total at least 2^-450, up to 2^39 samples, -100 <= k <= 100 and twice that bound on the weighted variance, weighted_skewness and weighted_kurtosis are finite and within twice those errors.", "quantifier": "every non-empty history of doubles in the stated range whose variance is not lost in the rounding errors", "why_tests_cant": "rounding errors of every history, through differences that cancel and quotients that magnify what is left", "anchors": ["include/boost/accumulators/statistics/skewness.hpp:skewness_impl", "include/boost/accumulators/statistics/kurtosis.hpp:kurtosis_impl", "include/boost/accumulators/statistics/moment.hpp:moment_impl", "include/boost/accumulators/statistics/weighted_skewness.hpp:weighted_skewness_impl", "include/boost/accumulators/statistics/weighted_kurtosis.hpp:weighted_kurtosis_impl"]}
{"id": "C92", "title": "Accuracy of the weighted covariance of doubles", "statement": "For 1 to 2^40 double samples and variates of magnitude at most b (2^-220 <= b <= 2^220) with weights from 0 to c (2^-450 <= c <= 2^440), the first weight at least 2^-450 and no other weight more than r times the total of those before it, where r*n*u <= 1/1000 (n the number of samples, u = 2^-53), weighted_covariance is finite and differs from the exact weighted covariance by at most 400*n*u*b^2. Reordering the history, within these conditions, changes it by at most twice that. (Without the limit on the weights it need not be finite: a weight of 2^55 times the total before it leaves it infinite or NaN for good.)", "quantifier": "every non-empty history of doubles in the stated range, and every reordering of it", "why_tests_cant": "rounding errors of every history; the update divides by a difference of totals that cancels when weights are uneven", "anchors": ["include/boost/accumulators/statistics/weighted_covariance.hpp:weighted_covariance_impl", "include/boost/accumulators/statistics/weighted_mean.hpp:weighted_mean_impl"]}
