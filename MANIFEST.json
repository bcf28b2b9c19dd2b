{
 "claims": [
  {
   "property": "C01",
   "status": "proved",
   "theorems": [
    "C01_count"
   ],
   "note": ""
  },
  {
   "property": "C02",
   "status": "proved",
   "theorems": [
    "C02_sum",
    "C02_sum_any_order",
    "C02_sum_batches",
    "C02_signed_sum_in_range",
    "C02_signed_sum_overflow",
    "C02_unsigned_sum"
   ],
   "note": ""
  },
  {
   "property": "C03",
   "status": "proved",
   "theorems": [
    "C03_mean",
    "C03_immediate_mean",
    "C03_interchangeable"
   ],
   "note": ""
  },
  {
   "property": "C04",
   "status": "partial",
   "theorems": [
    "C04_min",
    "C04_max",
    "C04_empty",
    "C04_int_order",
    "C04_float_order",
    "C04_infinite_samples_refuted"
   ],
   "note": "Holds whenever one sample is not infinite (always for integers); refuted for all-infinite histories of a floating type. NaN samples: C56."
  },
  {
   "property": "C05",
   "status": "proved",
   "theorems": [
    "C05_variance",
    "C05_lazy_variance",
    "C05_nonnegative"
   ],
   "note": ""
  },
  {
   "property": "C06",
   "status": "proved",
   "theorems": [
    "C06_pow",
    "C06_moment"
   ],
   "note": ""
  },
  {
   "property": "C07",
   "status": "proved",
   "theorems": [
    "C07_skewness",
    "C07_kurtosis",
    "C07_skewness_affine",
    "C07_kurtosis_affine",
    "C07_skewness_any_field"
   ],
   "note": ""
  },
  {
   "property": "C08",
   "status": "proved",
   "theorems": [
    "C08_covariance",
    "C08_symmetric",
    "C08_variance_on_diagonal",
    "C08_cauchy_schwarz",
    "C08_vector_covariance",
    "C08_vector_scalar_covariance",
    "C08_scalar_vector_covariance",
    "C08_vector_orientation_refuted",
    "C08_vector_dimensions_refuted"
   ],
   "note": "For two vectors entry (i,j) is the covariance of sample component j and variate component i: the transpose of the documented matrix, and undefined when the dimensions differ (refuted theorems)."
  },
  {
   "property": "C09",
   "status": "proved",
   "theorems": [
    "C09_weighted",
    "C09_weighted_covariance",
    "C09_positive_weights",
    "C09_nonnegative",
    "C09_vector_weighted_covariance"
   ],
   "note": ""
  },
  {
   "property": "C10",
   "status": "proved",
   "theorems": [
    "C10_unit_weights",
    "C10_unit_covariance",
    "C10_scaled_weights",
    "C10_scaled_covariance",
    "C10_natural_weights",
    "C10_natural_covariance"
   ],
   "note": ""
  },
  {
   "property": "C11",
   "status": "proved",
   "theorems": [
    "C11_any_order",
    "C11_covariance",
    "C11_weighted",
    "C11_min_any_order",
    "C11_max_any_order",
    "C02_sum_any_order",
    "C01_count"
   ],
   "note": ""
  },
  {
   "property": "C12",
   "status": "proved",
   "theorems": [
    "C12_error_of_mean"
   ],
   "note": ""
  },
  {
   "property": "C13",
   "status": "proved",
   "theorems": [
    "C13_exact",
    "C13_weighted_exact",
    "C13_rounded",
    "C13_binary64",
    "C13_weighted_binary64"
   ],
   "note": "No overflow; the weighted bound is relative to the rounded products."
  },
  {
   "property": "C14",
   "status": "proved",
   "theorems": [
    "C14_defined",
    "C14_window"
   ],
   "note": ""
  },
  {
   "property": "C15",
   "status": "proved",
   "theorems": [
    "C15_sum",
    "C15_means_moment"
   ],
   "note": ""
  },
  {
   "property": "C16",
   "status": "proved",
   "theorems": [
    "C16_variance",
    "C16_rationals",
    "C16_reals"
   ],
   "note": ""
  },
  {
   "property": "C17",
   "status": "proved",
   "theorems": [
    "C17_save_load"
   ],
   "note": "The byte-wise archive is modelled as a list of elements (trivially copyable element types)."
  },
  {
   "property": "C18",
   "status": "proved",
   "theorems": [
    "C18_heap_exists",
    "C18_binary_heap",
    "C18_tail",
    "C18_sides",
    "C18_zero_cache_refuted"
   ],
   "note": "For every strict weak order and every conforming heap. Cache size 0 is refuted (undefined behaviour)."
  },
  {
   "property": "C19",
   "status": "proved",
   "theorems": [
    "C19_variates"
   ],
   "note": ""
  },
  {
   "property": "C20",
   "status": "proved",
   "theorems": [
    "C20_interleaving",
    "C20_interleaving_variates",
    "C20_twice"
   ],
   "note": ""
  },
  {
   "property": "C21",
   "status": "proved",
   "theorems": [
    "C21_quantile",
    "C21_ceil_exists",
    "C21_exact_cache_refuted",
    "C21_end_points_refuted"
   ],
   "note": "Proved for 0 < p < 1; \"large enough\" means one sample more than the rank (a cache of exactly the rank gives NaN, refuted theorem); p = 0 (left) and p = 1 (right) are undefined behaviour."
  },
  {
   "property": "C22",
   "status": "partial",
   "theorems": [
    "C22_non_coherent",
    "C22_coherent_right",
    "C22_coherent_left_refuted"
   ],
   "note": "The documented coherent value is refuted for the left tail: the exact error is proved."
  },
  {
   "property": "C23",
   "status": "proved",
   "theorems": [
    "C23_variate_means"
   ],
   "note": ""
  },
  {
   "property": "C24",
   "status": "partial",
   "theorems": [
    "C24_quantile_mean",
    "C24_variate_means",
    "C24_termination_refuted",
    "C24_end_points_refuted"
   ],
   "note": "weighted_tail_variate_means does not terminate when the cached weights do not reach the level (proved); a level of 0 is undefined behaviour."
  },
  {
   "property": "C25",
   "status": "proved",
   "theorems": [
    "C25_fractions",
    "C25_sum"
   ],
   "note": ""
  },
  {
   "property": "C26",
   "status": "proved",
   "theorems": [
    "C25_fractions",
    "C26_one_bin",
    "C26_positions"
   ],
   "note": "The largest cached sample itself is in the overflow bin (stated in the property; shown by an example)."
  },
  {
   "property": "C27",
   "status": "proved",
   "theorems": [
    "C27_weighted",
    "C27_unit_weights"
   ],
   "note": ""
  },
  {
   "property": "C28",
   "status": "partial",
   "theorems": [
    "C28_first_partial",
    "C28_interleaving_refuted",
    "C28_interleaving_ub_refuted",
    "C28_early_refuted",
    "C28_constant_refuted"
   ],
   "note": "Only the first extraction is right; later ones are refuted (running sum never reset), as are extraction before the cache is full and constant samples."
  },
  {
   "property": "C29",
   "status": "proved",
   "theorems": [
    "C29_bracketed",
    "C29_few_samples"
   ],
   "note": "For every p (no restriction to [0,1] is needed)."
  },
  {
   "property": "C30",
   "status": "proved",
   "theorems": [
    "C30_distribution",
    "C30_interleaving"
   ],
   "note": ""
  },
  {
   "property": "C31",
   "status": "proved",
   "theorems": [
    "C31_monotone"
   ],
   "note": ""
  },
  {
   "property": "C32",
   "status": "proved",
   "theorems": [
    "C32_stored",
    "C32_outside",
    "C32_linear",
    "C32_linear_monotone",
    "C32_quadratic",
    "C32_quadratic_two_refuted",
    "C32_empty_refuted"
   ],
   "note": "The quadratic version is undefined behaviour with two probabilities, both are with none (refuted theorems)."
  },
  {
   "property": "C33",
   "status": "proved",
   "theorems": [
    "C33_bracketed",
    "C33_unit_weights"
   ],
   "note": ""
  },
  {
   "property": "C34",
   "status": "partial",
   "theorems": [
    "C34_distribution_partial",
    "C34_interleaving",
    "C34_last_refuted",
    "C34_monotone_refuted"
   ],
   "note": "The cumulative weights do not end at 1 for any history and need not be monotone: the exact last value is proved."
  },
  {
   "property": "C35",
   "status": "partial",
   "theorems": [
    "C35_median_partial",
    "C35_interleaving",
    "C35_one_cell_refuted",
    "C35_wrong_cell_refuted"
   ],
   "note": "The code interpolates one cell too far and reads outside the histogram when the last cell brackets one half; both are proved."
  },
  {
   "property": "C36",
   "status": "partial",
   "theorems": [
    "C36_value_partial",
    "C36_value_nan",
    "C36_weighted_value_partial",
    "C36_prob_partial",
    "C36_weighted_prob_partial",
    "C36_every_extraction",
    "C36_weighted_every_extraction",
    "C36_again_refuted",
    "C36_early_refuted",
    "C36_prob_again_refuted",
    "C36_prob_nan_refuted",
    "C36_prob_end_points_refuted",
    "C36_prob_left_refuted"
   ],
   "note": "Proved for any samples followed by any number of extractions (value versions) and for the first extraction (threshold-probability versions). The full claim fails in the code once a sample follows an extraction: see the _refuted theorems; C36_every_extraction says what every extraction of every history returns instead."
  },
  {
   "property": "C37",
   "status": "proved",
   "theorems": [
    "C37_consistent",
    "C37_at_threshold"
   ],
   "note": ""
  },
  {
   "property": "C38",
   "status": "proved",
   "theorems": [
    "C38_library",
    "C38_once",
    "C38_requested",
    "C38_dependencies",
    "C38_nothing_else",
    "C38_everything_called",
    "C38_explicit_wins",
    "C38_sides_refuted"
   ],
   "note": "Per abstract feature. Two sides of one tail feature are the same abstract feature, so a request for both yields one: C38_sides_refuted."
  },
  {
   "property": "C39",
   "status": "partial",
   "theorems": [
    "C39_library_partial",
    "C39_generic",
    "C39_refuted"
   ],
   "note": "Proved for every feature list of the statistics library and every enumeration order of the map, except sets with both rolling_variance and lazy_rolling_mean (where it is false: C39_refuted), and for every library whose dependence is transitive within the set."
  },
  {
   "property": "C40",
   "status": "partial",
   "theorems": [
    "C40_noninterference_partial",
    "C40_answers_partial",
    "C40_rolling_answers_partial",
    "C40_variates_refuted"
   ],
   "note": "For every pair of sets of the library without the rolling clash and any behaviour of the accumulators that reads only what the code extracts; plus end-to-end answers of every set for the basic and the rolling features. C54 runs the other accumulators in sets too, with C54_quantile_refuted where the answer depends on the rest of the set."
  },
  {
   "property": "C41",
   "status": "partial",
   "theorems": [
    "C41_continues_partial",
    "C41_stops_partial",
    "C41_library_partial",
    "C41_implementation_refuted",
    "C41_leak_refuted",
    "C41_twice_refuted",
    "C41_nested_refuted"
   ],
   "note": "drop<> releases the dependencies of the abstract feature, not those of the accumulator. Where both coincide the claim is proved; elsewhere it is false, with witnesses."
  },
  {
   "property": "C42",
   "status": "partial",
   "theorems": [
    "C42_drop_changes_counts_only",
    "C42_push_changes_no_count",
    "C42_frozen_partial",
    "C42_twice_refuted"
   ],
   "note": "The second half is proved in full; the first for legal drops. A second drop of the same feature makes the reference count -1 and the accumulator resumes: C42_twice_refuted."
  },
  {
   "property": "C43",
   "status": "partial",
   "theorems": [
    "C43_sets",
    "C43_density",
    "C43_distribution",
    "C43_tail",
    "C43_variates_partial",
    "C43_weighted_tail_partial",
    "C43_ties_refuted",
    "C43_density_median_refuted",
    "C43_pot_refuted",
    "C43_weighted_pot_refuted",
    "C43_pot_prob_refuted"
   ],
   "note": "Proved for every feature without caches, for the histograms, the P-square distributions and their median, the tail and its statistics; for tail variates and weights when no sample occurs twice. Refuted for tail variates with equal samples, for the density median and for peaks over threshold: extraction changes later results."
  },
  {
   "property": "C44",
   "status": "partial",
   "theorems": [
    "C44_library_partial",
    "C44_library_unsaved",
    "C44_library_forgets_refuted",
    "C44_sets_partial",
    "C44_unsaved",
    "C44_density",
    "C44_density_median",
    "C44_psquare",
    "C44_distribution",
    "C44_tail_partial",
    "C44_pot",
    "C44_pot_prob",
    "C44_ring",
    "C44_ring_blocks_partial",
    "C44_dropped_refuted",
    "C44_weighted_pot_refuted",
    "C44_weighted_pot_kept",
    "C44_library_weighted_pot_kept",
    "C44_ring_blocks_refuted"
   ],
   "note": "Proved for sets of the whole library with their caches (every accumulator with a usable serialize(): C44_library_unsaved lists the others; nothing dropped, nothing undefined), and once more for each family alone. Refuted: reference counts of droppable accumulators are not saved; weighted_peaks_over_threshold does not save its weight; a wrapped circular buffer cannot be read back from an archive that keeps save_binary calls apart. Archives are modelled by their contract."
  },
  {
   "property": "C45",
   "status": "proved",
   "theorems": [
    "C45_which",
    "C45_external",
    "C45_external_reference",
    "C45_external_weights",
    "C45_textbook",
    "C45_weights_only",
    "C45_value",
    "C45_reference"
   ],
   "note": "Every external feature reports what the other set says, also through a reference; with the weight type external<W> every feature answers as with weights of its own when the other set is fed in step. Sets with the lazy rolling_mean beside rolling_variance are excluded (C39)."
  },
  {
   "property": "C46",
   "status": "proved",
   "theorems": [
    "C46_componentwise",
    "C46_weighted_componentwise",
    "C46_moments_defined",
    "C46_min_max",
    "C46_textbook",
    "C46_weighted_textbook",
    "C46_dimension",
    "C46_dimension_refuted",
    "C46_no_initial_sample_refuted"
   ],
   "note": "Component-wise for every number type (no laws needed) and textbook values in exact arithmetic. Sums, means, minima and maxima check the dimension; the immediate mean silently truncates longer samples, and a set without sample= has dimension 0 (refuted theorems)."
  },
  {
   "property": "C47",
   "status": "partial",
   "theorems": [
    "C47_identities",
    "C47_vector_identities",
    "C47_complex_one_refuted",
    "C47_complex_weighted_sum_refuted",
    "C47_complex_weighted_sum",
    "C47_vector_constants_refuted",
    "C47_min_max_assign",
    "C47_vector_min_max_assign",
    "C47_divides",
    "C47_fdiv",
    "C47_fdiv_vectors_refuted",
    "C47_complex_field",
    "C47_complex_scalar",
    "C47_complex_mean"
   ],
   "note": "Identities for integers, floating point (exact arithmetic) and, through as_zero/as_one, vectors; min_assign/max_assign for every order and vector; fdiv exact. Refuted: one of complex numbers is 1+i, zero and one of vectors are [] and (0), fdiv of two integer vectors truncates."
  },
  {
   "property": "C48",
   "status": "partial",
   "theorems": [
    "C48_variance_bias",
    "C48_moment_bias",
    "C48_mean_bias",
    "C48_variance_refuted",
    "C48_rolling_mean_unbiased",
    "C48_rolling_refuted",
    "C15_sum"
   ],
   "note": "The property is refuted: the exact bias is proved."
  },
  {
   "property": "C49",
   "status": "proved",
   "theorems": [
    "C49_monotone",
    "C49_unit_weights",
    "C49_no_probabilities_refuted"
   ],
   "note": ""
  },
  {
   "property": "C50",
   "status": "proved",
   "theorems": [
    "C50_marker_moves",
    "C50_push_right"
   ],
   "note": ""
  },
  {
   "property": "C51",
   "status": "proved",
   "theorems": [
    "C51_one_probability"
   ],
   "note": ""
  },
  {
   "property": "C52",
   "status": "proved",
   "theorems": [
    "C52_sum_wrapping",
    "C52_sum_signed",
    "C52_mean",
    "C52_mean_wrapping",
    "C52_mean_refuted",
    "C52_sum_refuted",
    "C52_immediate",
    "C52_moment",
    "C52_moment_signed",
    "C52_moment_wrapping",
    "C52_lazy_variance",
    "C52_lazy_variance_refuted",
    "C52_moment_ushort_refuted",
    "C52_moment_short_refuted",
    "C52_fed",
    "C52_fed_overflow",
    "C52_fed_variance",
    "C52_fed_refuted",
    "C52_rolling_sum_wrapping",
    "C52_rolling_sum_signed",
    "C52_rolling_sum_refuted",
    "C52_lazy_rolling_mean",
    "C52_lazy_rolling_mean_wrapping",
    "C52_rolling",
    "C52_rolling_unsigned",
    "C52_rolling_mean_refuted",
    "C52_weighted_sum",
    "C52_weighted_sum_unsigned",
    "C52_weighted_refuted"
   ],
   "note": "Integers follow the C++ rules (promotion to a 32-bit int, usual arithmetic conversions, modular unsigned arithmetic and conversions, signed overflow undefined); floating results are exact (any ordered field). The _refuted theorems are the surprising cases: a mean, a lazy variance (negative), a rolling sum, a rolling mean and a weighted mean that go wrong although every sample and the right answer are representable; an int pushed into a set of double is squared as an int."
  },
  {
   "property": "C53",
   "status": "proved",
   "theorems": [
    "C53_value",
    "C53_drop",
    "C53_stopped",
    "C53_answers",
    "C53_shows",
    "C53_value_refuted",
    "C53_cached_running",
    "C53_cached_frozen",
    "C53_cached_raw_refuted",
    "C53_cached_over_refuted"
   ],
   "note": "Legal drops that release only what was held (see C41), numbers in any field. The _refuted theorems: a dropped mean whose count is still wanted moves; a cached result used before any reference was taken, as the construction of a set does, reads raw storage; one release too many makes it run again when assertions are off."
  },
  {
   "property": "C54",
   "status": "proved",
   "theorems": [
    "C54_library",
    "C54_basic",
    "C54_rolling",
    "C54_weighted_median",
    "C54_weighted_extended",
    "C54_weighted_distribution",
    "C54_extended_quantile",
    "C54_density_median",
    "C54_weighted_density_median",
    "C54_distribution_median",
    "C54_coherent_tail_mean",
    "C54_relative_variate_means",
    "C54_weighted_variate_means",
    "C54_fit_quantile",
    "C54_fit_tail_mean",
    "C54_weighted_pot",
    "C54_pot_prob",
    "C54_weighted_pot_prob",
    "C54_min",
    "C54_max",
    "C54_density",
    "C54_weighted_density",
    "C54_p_square",
    "C54_weighted_p_square",
    "C54_median",
    "C54_extended",
    "C54_distribution",
    "C54_tail",
    "C54_tail_quantile",
    "C54_tail_mean",
    "C54_weighted_tail_quantile",
    "C54_weighted_tail_mean",
    "C54_variate_means",
    "C54_pot",
    "C54_pot_quantile",
    "C54_pot_tail_mean",
    "C54_quantile_refuted"
   ],
   "note": "Every accumulator of the library is run inside a set. The answer depends on the rest of the set in one way only, which the code really has and C54_quantile_refuted exhibits: a feature that several accumulators can provide (quantile, tail, fit, tail mean) is provided once per set, so pot_tail_mean and coherent_tail_mean build on whichever quantile the set has. Legal drops that release only what was held (C41)."
  },
  {
   "property": "C55",
   "status": "proved",
   "theorems": [
    "C55_variance",
    "C55_variance_finite",
    "C55_error_of_mean",
    "C55_weighted_variance",
    "C55_lazy_variance_refuted",
    "C55_error_of_lazy_mean_refuted",
    "C55_weighted_finite_refuted"
   ],
   "note": "IEEE binary64, round to nearest even (Flocq). The _refuted theorems show what the lazy forms and the weighted variance do not promise."
  },
  {
   "property": "C56",
   "status": "proved",
   "theorems": [
    "C56_min",
    "C56_max",
    "C56_min_sample",
    "C56_max_sample",
    "C56_skipped",
    "C56_poison",
    "C56_single_refuted",
    "C56_infinite_refuted"
   ],
   "note": "IEEE binary64; signs and payloads of NaN are not modelled. _refuted: the two exceptions the statement allows for."
  },
  {
   "property": "C57",
   "status": "proved",
   "theorems": [
    "C57_sum",
    "C57_integers",
    "C57_mean",
    "C57_immediate_mean",
    "C57_immediate_mean_bound",
    "C57_mean_outside_refuted",
    "C57_same_mean_refuted",
    "C57_order_refuted",
    "C57_overflow_refuted"
   ],
   "note": "IEEE binary64. The _refuted theorems are the expectations listed in parentheses in the statement."
  },
  {
   "property": "C58",
   "status": "proved",
   "theorems": [
    "C58_sum",
    "C58_integers",
    "C58_variance",
    "C58_poison",
    "C58_recovers_refuted",
    "C58_drift_refuted",
    "C58_negative_refuted",
    "C58_lazy_negative_refuted"
   ],
   "note": "IEEE binary64. The _refuted theorems: errors and infinities of samples that left the window stay; without the bound the default variance is minus infinity; the lazy rolling variance is negative for two close samples."
  },
  {
   "property": "C59",
   "status": "proved",
   "theorems": [
    "C59_p_square",
    "C59_distribution",
    "C59_extended",
    "C59_overflow_refuted"
   ],
   "note": "IEEE binary64, unweighted estimators. The _refuted theorem: with samples of the largest magnitude the median estimate is infinite."
  },
  {
   "property": "C60",
   "status": "proved",
   "theorems": [
    "C60_extractions",
    "C60_variates",
    "C60_reports",
    "C60_dropped_refuted",
    "C60_disturbing_refuted",
    "C60_ties_refuted"
   ],
   "note": "Every set of the library, every interleaving; the exceptions named in the statement are shown real by the _refuted theorems. Two mutable members that result() assigns before use are not modelled."
  },
  {
   "property": "C61",
   "status": "proved",
   "theorems": [
    "C61_tail",
    "C61_quantile_mean",
    "C61_mean_accurate",
    "C61_coherent_accurate",
    "C61_exact_rank_refuted",
    "C61_nan_refuted"
   ],
   "note": "IEEE binary64. The _refuted theorems are the expectations listed in parentheses in the statement."
  },
  {
   "property": "C62",
   "status": "proved",
   "theorems": [
    "C62_histogram",
    "C62_last_bin_refuted",
    "C62_early_overflow_refuted",
    "C62_wide_spread_refuted"
   ],
   "note": "IEEE binary64, finite samples. The _refuted theorems are the exceptions listed in parentheses in the statement."
  },
  {
   "property": "C63",
   "status": "proved",
   "theorems": [
    "C63_variance",
    "C63_lazy_variance",
    "C63_order",
    "C63_covariance",
    "C63_covariance_order"
   ],
   "note": "IEEE binary64, absolute error bounds."
  },
  {
   "property": "C64",
   "status": "proved",
   "theorems": [
    "C64_weighted_sum",
    "C64_sum_of_weights",
    "C64_weighted_mean",
    "C64_immediate_weighted_mean",
    "C64_order",
    "C64_leading_zero_refuted"
   ],
   "note": "IEEE binary64, absolute error bounds; the immediate mean needs a first weight that is not tiny (zero refutes it)."
  },
  {
   "property": "C65",
   "status": "proved",
   "theorems": [
    "C65_weighted_p_square",
    "C65_weighted_distribution",
    "C65_weighted_extended"
   ],
   "note": "IEEE binary64; weights of any sign up to 2^900, heights only (the reported cumulative weights are those of C34)."
  },
  {
   "property": "C66",
   "status": "partial",
   "theorems": [
    "C66_density",
    "C66_tail",
    "C66_tail_means",
    "C66_peaks_partial",
    "C66_peaks_again_refuted",
    "C66_p_square_refuted",
    "C66_frozen_quantile_refuted",
    "C66_any_history_refuted",
    "C66_frozen_extended_refuted",
    "C66_frozen_distribution_refuted"
   ],
   "note": "Holds for density, tails and the first peaks-over-threshold fit; the weighted P-square estimators (for every history) and later fits refute it."
  },
  {
   "property": "C67",
   "status": "partial",
   "theorems": [
    "C67_moments",
    "C67_weighted_moments",
    "C67_covariance",
    "C67_p_square",
    "C67_weighted_p_square",
    "C67_distribution",
    "C67_weighted_distribution",
    "C67_extended",
    "C67_weighted_extended",
    "C67_density",
    "C67_tail",
    "C67_weighted_tail",
    "C67_peaks",
    "C67_coherent_partial",
    "C67_coherent_shift_refuted",
    "C67_p_square_mirror_refuted"
   ],
   "note": "Holds for all but two: the coherent tail mean follows a change of scale but not a shift, and P-square does not follow a reflection."
  },
  {
   "property": "C68",
   "status": "partial",
   "theorems": [
    "C68_density_partial",
    "C68_density_refuted",
    "C68_distribution_partial",
    "C68_extended_refuted",
    "C68_tail_partial",
    "C68_tail_refuted",
    "C68_rolling_window_refuted",
    "C68_variate_means_refuted"
   ],
   "note": "Ranges are views: what they show later, and when they dangle, is determined exactly; that they do not change is refuted."
  },
  {
   "property": "C69",
   "status": "proved",
   "theorems": [
    "C69_set",
    "C69_density",
    "C69_tail",
    "C69_binary_heap"
   ],
   "note": "Counts elements of containers; a tail keeps the argument pack of a sample as one element."
  },
  {
   "property": "C70",
   "status": "proved",
   "theorems": [
    "C70_same_type",
    "C70_weighted_same_type",
    "C70_integer",
    "C70_integer_weighted",
    "C70_mixed_lengths_refuted",
    "C70_equality"
   ],
   "note": "C70_mixed_lengths_refuted records a finding: longer samples of integers are cut off silently by the immediate mean. Integer weights have the element type, not narrower than int."
  },
  {
   "property": "C71",
   "status": "proved",
   "theorems": [
    "C71_mean_variance",
    "C71_covariance",
    "C71_shape",
    "C71_weighted",
    "C71_weighted_covariance",
    "C71_negative_weight_refuted",
    "C71_rolling"
   ],
   "note": "Exact arithmetic; C71_negative_weight_refuted shows that the condition on the weights is needed. In IEEE doubles see C55, C57 and C58."
  },
  {
   "property": "C72",
   "status": "proved",
   "theorems": [
    "C72_moments",
    "C72_covariance",
    "C72_weighted",
    "C72_rolling",
    "C72_p_square",
    "C72_extended",
    "C72_distribution",
    "C72_tail",
    "C72_double_extremes",
    "C72_double_quantiles",
    "C72_double_integers",
    "C72_double_moments_refuted",
    "C72_double_infinite_refuted",
    "C72_double_shape_refuted"
   ],
   "note": "The three _refuted theorems record what the moments of equal doubles do instead. The histogram of equal samples is C28_constant_refuted."
  },
  {
   "property": "C73",
   "status": "partial",
   "theorems": [
    "C73_tail",
    "C73_weighted_tail",
    "C73_extended",
    "C73_weighted_extended",
    "C73_coherent_refuted",
    "C73_quadratic_refuted",
    "C73_psquare_refuted"
   ],
   "note": "Proved where it holds; the code refutes it for the coherent tail mean, for quadratic interpolation and for separate P-square estimators. Peaks over threshold: C37."
  },
  {
   "property": "C74",
   "status": "proved",
   "theorems": [
    "C74_parts",
    "C74_weighted_parts",
    "C74_rolling",
    "C74_moment",
    "C74_variance",
    "C74_weighted_variance",
    "C74_spread_refuted",
    "C74_negative_variance_refuted"
   ],
   "note": "The _refuted theorems record that the variance of complex samples is no measure of spread. Not modelled: infinities recovered by complex multiplication, covariance of complex samples."
  },
  {
   "property": "C75",
   "status": "proved",
   "theorems": [
    "C75_quantile_mean",
    "C75_mean_accuracy",
    "C75_exact_quantile_refuted",
    "C75_underflow_refuted"
   ],
   "note": "The _refuted theorems record where the exact weighted quantile is missed and where a read happens before the first sample. Negative, infinite and NaN weights are excluded by the statement."
  },
  {
   "property": "C76",
   "status": "proved",
   "theorems": [
    "C76_histogram",
    "C76_one_rounding_refuted"
   ],
   "note": "The _refuted theorem records that the error grows with the number of samples. Negative, infinite and NaN weights are excluded by the statement."
  },
  {
   "property": "C77",
   "status": "proved",
   "theorems": [
    "C77_unthrown",
    "C77_library",
    "C77_generic",
    "C77_count",
    "C77_undone_refuted"
   ],
   "note": "The _refuted theorem records that an interrupted push is not undone. Exceptions thrown by result() leave the accumulators alone (C43 on caches)."
  },
  {
   "property": "C78",
   "status": "proved",
   "theorems": [
    "C78_life",
    "C78_no_life",
    "C78_untouched",
    "C78_copy",
    "C78_assignment",
    "C78_refers",
    "C78_together_refuted"
   ],
   "note": "The _refuted theorem records that copying a pair of sets, one referring to the other, does not copy the relation. Ranges obtained from a set: C68."
  },
  {
   "property": "C79",
   "status": "proved",
   "theorems": [
    "C79_lazy",
    "C79_immediate",
    "C79_order",
    "C79_unbalanced_refuted"
   ],
   "note": "The _refuted theorem shows that the condition on the ratio of weights cannot be dropped for the immediate form."
  },
  {
   "property": "C80",
   "status": "proved",
   "theorems": [
    "C80_sums",
    "C80_immediate",
    "C80_covariance",
    "C80_histogram",
    "C80_tail",
    "C80_tail_quantile_refuted"
   ],
   "note": "The P^2 estimators are not included: the weighted ones compute their desired positions differently."
  },
  {
   "property": "C81",
   "status": "proved",
   "theorems": [
    "C81_monotone",
    "C81_subadditive",
    "C81_quantile_refuted",
    "C81_coherent_left_refuted",
    "C81_psquare_refuted"
   ],
   "note": "The _refuted theorems delimit the property: they show which statistics do not have it."
  },
  {
   "property": "C82",
   "status": "proved",
   "theorems": [
    "C82_means",
    "C82_weighted",
    "C82_window",
    "C82_window_refuted",
    "C82_rolling_mean_refuted",
    "C82_extremes"
   ],
   "note": "The _refuted theorems delimit the property: they show which statistics do not have it."
  },
  {
   "property": "C83",
   "status": "proved",
   "theorems": [
    "C83_lazy",
    "C83_immediate",
    "C83_covariance",
    "C83_histogram",
    "C83_quantile",
    "C83_cache_refuted",
    "C83_tail_mean_refuted",
    "C83_histogram_refuted",
    "C83_p_square_refuted"
   ],
   "note": "The _refuted theorems delimit the property: they show which statistics do not have it."
  },
  {
   "property": "C84",
   "status": "proved",
   "theorems": [
    "C84_means",
    "C84_variances",
    "C84_moment",
    "C84_shape",
    "C84_weighted",
    "C84_weighted_shape",
    "C84_covariance",
    "C84_weighted_covariance",
    "C84_rolling",
    "C84_tail",
    "C84_heap",
    "C84_extremes"
   ],
   "note": "P-square estimators do not have this property even in exact arithmetic: C67_p_square_mirror_refuted."
  },
  {
   "property": "C85",
   "status": "proved",
   "theorems": [
    "C85_sums",
    "C85_watched",
    "C85_watched_weighted",
    "C85_watched_triples",
    "C85_watched_rolling",
    "C85_statistics",
    "C85_weighted",
    "C85_covariance",
    "C85_weighted_covariance",
    "C85_rolling",
    "C85_tail",
    "C85_extremes"
   ],
   "note": "The default rolling variance is left out: its clamp at zero can hide an underflow from the flag. C85_underflow_ex shows that the condition on underflow is needed."
  },
  {
   "property": "C86",
   "status": "proved",
   "theorems": [
    "C86_meaning",
    "C86_order",
    "C86_unused",
    "C86_compiles",
    "C86_enough",
    "C86_question",
    "C86_no_default"
   ],
   "note": "A sample or a weight given to the constructor is C48 and excluded here. Arguments of the wrong type count as missing; the conversions of C++ are not modelled."
  },
  {
   "property": "C87",
   "status": "proved",
   "theorems": [
    "C87_results",
    "C87_shape",
    "C87_covariance",
    "C87_weighted",
    "C87_weighted_covariance",
    "C87_extremes",
    "C87_tail"
   ],
   "note": "In exact arithmetic; for doubles C57 and C63 bound how far both sides are from it."
  },
  {
   "property": "C88",
   "status": "proved",
   "theorems": [
    "C88_moment",
    "C88_order",
    "C88_weighted",
    "C88_integers",
    "C88_first",
    "C88_even",
    "C88_overflow_refuted"
   ],
   "note": "Outside the stated range the sum of powers can overflow though the moment does not (C88_overflow_refuted)."
  },
  {
   "property": "C89",
   "status": "proved",
   "theorems": [
    "C89_mean",
    "C89_lazy_mean",
    "C89_moment",
    "C89_filling",
    "C89_variance",
    "C89_lazy_variance"
   ],
   "note": "The bounds grow with the number of samples seen, as the code never recomputes from the window."
  },
  {
   "property": "C90",
   "status": "proved",
   "theorems": [
    "C90_immediate",
    "C90_lazy"
   ],
   "note": "Without the lower bound on the variance error_of<mean> can be NaN (C55_error_of_lazy_mean_refuted)."
  },
  {
   "property": "C91",
   "status": "proved",
   "theorems": [
    "C91_skewness",
    "C91_kurtosis",
    "C91_weighted_skewness",
    "C91_weighted_kurtosis",
    "C91_well_spread",
    "C91_close_samples_refuted"
   ],
   "note": "The lower bound on the variance is a hypothesis of the property: without it both can be NaN (C91_close_samples_refuted)."
  },
  {
   "property": "C92",
   "status": "proved",
   "theorems": [
    "C92_weighted_covariance",
    "C92_order",
    "C92_unbalanced_refuted"
   ],
   "note": "The limit on uneven weights is a hypothesis of the property; C92_unbalanced_refuted shows that it is needed."
  }
 ]
}