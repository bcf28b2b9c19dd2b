(** The features of the statistics library as a [Lib] (see ModelFramework): every
    tag of include/boost/accumulators/statistics/, what it depends on, which
    abstract feature it provides, what it becomes in a weighted set.

    Each constructor cites the line of the tag's definition; the tables cite the
    specialisations of feature_of and as_weighted_feature.

    [v] stands for the moment's order, or for the pair (VariateType, VariateTag);
    [s] for LeftRight.  Of error_of<Feature> only the two instances that have an
    implementation are listed (error_of_mean.hpp); in a weighted set they do not
    compile (the assertion of depends_on.hpp 288-294 fails), so their weighted
    version is immaterial.  The abstract features quantile and tail_mean have no
    implementation of their own and are here only as features.  The framework's
    own external, value and reference features are modelled in ModelExternal. *)

From Coq Require Import List Bool Arith.
From Verif Require Import ModelFramework.
Import ListNotations.

Inductive side : Type := on_left | on_right.

Inductive ltag : Type :=
| t_count : ltag (* count.hpp 64 *)
| t_min : ltag (* min.hpp 69 *)
| t_max : ltag (* max.hpp 69 *)
| t_sum : ltag (* sum.hpp 73 *)
| t_sum_kahan : ltag (* sum_kahan.hpp 96 *)
| t_weighted_sum : ltag (* weighted_sum.hpp 77 *)
| t_weighted_sum_kahan : ltag (* weighted_sum_kahan.hpp 96 *)
| t_sum_of_weights : ltag (* sum.hpp 81 *)
| t_sum_of_weights_kahan : ltag (* sum_kahan.hpp 104 *)
| t_abstract_sum_of_variates : ltag (* sum.hpp 99 *)
| t_sum_of_variates : nat -> ltag (* sum.hpp 91 *)
| t_sum_of_variates_kahan : nat -> ltag (* sum_kahan.hpp 114 *)
| t_abstract_weighted_sum_of_variates : ltag (* weighted_sum.hpp 94 *)
| t_weighted_sum_of_variates : nat -> ltag (* weighted_sum.hpp 86 *)
| t_weighted_sum_of_variates_kahan : nat -> ltag (* weighted_sum_kahan.hpp 105 *)
| t_mean : ltag (* mean.hpp 100 *)
| t_immediate_mean : ltag (* mean.hpp 107 *)
| t_weighted_mean : ltag (* weighted_mean.hpp 119 *)
| t_immediate_weighted_mean : ltag (* weighted_mean.hpp 126 *)
| t_mean_of_weights : ltag (* mean.hpp 114 *)
| t_immediate_mean_of_weights : ltag (* mean.hpp 122 *)
| t_mean_of_variates : nat -> ltag (* mean.hpp 131 *)
| t_immediate_mean_of_variates : nat -> ltag (* mean.hpp 139 *)
| t_weighted_mean_of_variates : nat -> ltag (* weighted_mean.hpp 134 *)
| t_immediate_weighted_mean_of_variates : nat -> ltag (* weighted_mean.hpp 142 *)
| t_moment : nat -> ltag (* moment.hpp 97 *)
| t_weighted_moment : nat -> ltag (* weighted_moment.hpp 82 *)
| t_variance : ltag (* variance.hpp 147 *)
| t_lazy_variance : ltag (* variance.hpp 139 *)
| t_weighted_variance : ltag (* weighted_variance.hpp 133 *)
| t_lazy_weighted_variance : ltag (* weighted_variance.hpp 125 *)
| t_skewness : ltag (* skewness.hpp 81 *)
| t_weighted_skewness : ltag (* weighted_skewness.hpp 78 *)
| t_kurtosis : ltag (* kurtosis.hpp 79 *)
| t_weighted_kurtosis : ltag (* weighted_kurtosis.hpp 82 *)
| t_abstract_covariance : ltag (* covariance.hpp 180 *)
| t_covariance : nat -> ltag (* covariance.hpp 174 *)
| t_weighted_covariance : nat -> ltag (* weighted_covariance.hpp 119 *)
| t_error_of_mean : ltag (* error_of.hpp 53, error_of_mean.hpp *)
| t_error_of_immediate_mean : ltag (* error_of.hpp 53, error_of_mean.hpp *)
| t_density : ltag (* density.hpp 220 *)
| t_weighted_density : ltag (* weighted_density.hpp 207 *)
| t_p_square_quantile : ltag (* p_square_quantile.hpp 223 *)
| t_p_square_quantile_for_median : ltag (* p_square_quantile.hpp 230 *)
| t_weighted_p_square_quantile : ltag (* weighted_p_square_quantile.hpp 236 *)
| t_weighted_p_square_quantile_for_median : ltag (* weighted_p_square_quantile.hpp 241 *)
| t_p_square_cumulative_distribution : ltag (* p_square_cumul_dist.hpp 241 *)
| t_weighted_p_square_cumulative_distribution : ltag (* weighted_p_square_cumul_dist.hpp 253 *)
| t_extended_p_square : ltag (* extended_p_square.hpp 268 *)
| t_weighted_extended_p_square : ltag (* weighted_extended_p_square.hpp 280 *)
| t_median : ltag (* median.hpp 201 *)
| t_with_density_median : ltag (* median.hpp 208 *)
| t_with_p_square_cumulative_distribution_median : ltag (* median.hpp 215 *)
| t_weighted_median : ltag (* weighted_median.hpp 197 *)
| t_with_density_weighted_median : ltag (* weighted_median.hpp 204 *)
| t_with_p_square_cumulative_distribution_weighted_median : ltag (* weighted_median.hpp 211 *)
| t_quantile : ltag (* statistics_fwd.hpp 25 *)
| t_extended_p_square_quantile : ltag (* extended_p_square_quantile.hpp 214 *)
| t_extended_p_square_quantile_quadratic : ltag (* extended_p_square_quantile.hpp 219 *)
| t_weighted_extended_p_square_quantile : ltag (* extended_p_square_quantile.hpp 224 *)
| t_weighted_extended_p_square_quantile_quadratic : ltag (* extended_p_square_quantile.hpp 229 *)
| t_abstract_tail : ltag (* tail.hpp 326 *)
| t_tail : side -> ltag (* tail.hpp 312 *)
| t_abstract_tail_variate : ltag (* tail_variate.hpp 100 *)
| t_tail_variate : side -> nat -> ltag (* tail_variate.hpp 92 *)
| t_abstract_tail_weights : ltag (* tail_variate.hpp 114 *)
| t_tail_weights : side -> ltag (* tail_variate.hpp 106 *)
| t_tail_quantile : side -> ltag (* tail_quantile.hpp 114 *)
| t_weighted_tail_quantile : side -> ltag (* weighted_tail_quantile.hpp 120 *)
| t_tail_mean : ltag (* statistics_fwd.hpp 43 *)
| t_abstract_non_coherent_tail_mean : ltag (* tail_mean.hpp 195 *)
| t_non_coherent_tail_mean : side -> ltag (* tail_mean.hpp 189 *)
| t_non_coherent_weighted_tail_mean : side -> ltag (* weighted_tail_mean.hpp 144 *)
| t_coherent_tail_mean : side -> ltag (* tail_mean.hpp 182 *)
| t_abstract_absolute_tail_variate_means : ltag (* tail_variate_means.hpp 182 *)
| t_abstract_relative_tail_variate_means : ltag (* tail_variate_means.hpp 186 *)
| t_absolute_tail_variate_means : side -> nat -> ltag (* tail_variate_means.hpp 171 *)
| t_absolute_weighted_tail_variate_means : side -> nat -> ltag (* weighted_tail_variate_means.hpp 204 *)
| t_relative_tail_variate_means : side -> nat -> ltag (* tail_variate_means.hpp 177 *)
| t_relative_weighted_tail_variate_means : side -> nat -> ltag (* weighted_tail_variate_means.hpp 210 *)
| t_abstract_peaks_over_threshold : ltag (* peaks_over_threshold.hpp 358 *)
| t_peaks_over_threshold : side -> ltag (* peaks_over_threshold.hpp 339 *)
| t_peaks_over_threshold_prob : side -> ltag (* peaks_over_threshold.hpp 349 *)
| t_weighted_peaks_over_threshold : side -> ltag (* weighted_peaks_over_threshold.hpp 252 *)
| t_weighted_peaks_over_threshold_prob : side -> ltag (* weighted_peaks_over_threshold.hpp 261 *)
| t_pot_quantile : side -> ltag (* pot_quantile.hpp 106 *)
| t_weighted_pot_quantile : side -> ltag (* pot_quantile.hpp 122 *)
| t_pot_tail_mean : side -> ltag (* pot_tail_mean.hpp 113 *)
| t_weighted_pot_tail_mean : side -> ltag (* pot_tail_mean.hpp 129 *)
| t_pot_quantile_prob : side -> ltag (* pot_quantile.hpp 114 *)
| t_weighted_pot_quantile_prob : side -> ltag (* pot_quantile.hpp 130 *)
| t_pot_tail_mean_prob : side -> ltag (* pot_tail_mean.hpp 121 *)
| t_weighted_pot_tail_mean_prob : side -> ltag (* pot_tail_mean.hpp 137 *)
| t_rolling_window_plus1 : ltag (* rolling_window.hpp 174 *)
| t_rolling_window : ltag (* rolling_window.hpp 188 *)
| t_rolling_count : ltag (* rolling_count.hpp 56 *)
| t_rolling_sum : ltag (* rolling_sum.hpp 71 *)
| t_rolling_moment : nat -> ltag (* rolling_moment.hpp 79 *)
| t_rolling_mean : ltag (* rolling_mean.hpp 142: derives from immediate_rolling_mean *)
| t_immediate_rolling_mean : ltag (* rolling_mean.hpp 128 *)
| t_lazy_rolling_mean : ltag (* rolling_mean.hpp 115 *)
| t_rolling_variance : ltag (* rolling_variance.hpp 205: derives from immediate_rolling_variance *)
| t_immediate_rolling_variance : ltag (* rolling_variance.hpp 191 *)
| t_lazy_rolling_variance : ltag (* rolling_variance.hpp 178 *).

(** feature_of; the default (depends_on.hpp 66-71) is the tag itself. *)
Definition lfeature (t : ltag) : ltag :=
  match t with
  | t_sum_kahan => t_sum (* sum_kahan.hpp 174 *)
  | t_weighted_sum => t_sum (* sum.hpp 134 *)
  | t_weighted_sum_kahan => t_sum (* sum_kahan.hpp 167 *)
  | t_sum_of_weights_kahan => t_sum_of_weights (* sum_kahan.hpp 182 *)
  | t_sum_of_variates v => t_abstract_sum_of_variates (* sum.hpp 139 *)
  | t_sum_of_variates_kahan v => t_abstract_sum_of_variates (* sum_kahan.hpp 188 *)
  | t_weighted_sum_of_variates v => t_abstract_weighted_sum_of_variates (* weighted_sum.hpp 116 *)
  | t_weighted_sum_of_variates_kahan v => t_abstract_weighted_sum_of_variates (* weighted_sum_kahan.hpp 139 *)
  | t_immediate_mean => t_mean (* mean.hpp 212 *)
  | t_weighted_mean => t_mean (* mean.hpp 242 *)
  | t_immediate_weighted_mean => t_mean (* mean.hpp 255 *)
  | t_immediate_mean_of_weights => t_mean_of_weights (* mean.hpp 220 *)
  | t_immediate_mean_of_variates v => t_mean_of_variates v (* mean.hpp 228 *)
  | t_weighted_mean_of_variates v => t_mean_of_variates v (* mean.hpp 268 *)
  | t_immediate_weighted_mean_of_variates v => t_mean_of_variates v (* mean.hpp 282 *)
  | t_weighted_moment v => t_moment v (* moment.hpp 125 *)
  | t_lazy_variance => t_variance (* variance.hpp 189 *)
  | t_weighted_variance => t_variance (* variance.hpp 205 *)
  | t_lazy_weighted_variance => t_variance (* variance.hpp 221 *)
  | t_weighted_skewness => t_skewness (* skewness.hpp 111 *)
  | t_weighted_kurtosis => t_kurtosis (* kurtosis.hpp 109 *)
  | t_covariance v => t_abstract_covariance (* covariance.hpp 199 *)
  | t_weighted_covariance v => t_abstract_covariance (* covariance.hpp 213 *)
  | t_weighted_density => t_density (* density.hpp 259 *)
  | t_weighted_p_square_quantile => t_p_square_quantile (* p_square_quantile.hpp 264 *)
  | t_weighted_p_square_cumulative_distribution => t_p_square_cumulative_distribution (* p_square_cumul_dist.hpp 272 *)
  | t_weighted_extended_p_square => t_extended_p_square (* extended_p_square.hpp 302 *)
  | t_with_density_median => t_median (* median.hpp 269 *)
  | t_with_p_square_cumulative_distribution_median => t_median (* median.hpp 275 *)
  | t_weighted_median => t_median (* median.hpp 289 *)
  | t_with_density_weighted_median => t_median (* median.hpp 303 *)
  | t_with_p_square_cumulative_distribution_weighted_median => t_median (* median.hpp 317 *)
  | t_extended_p_square_quantile => t_quantile (* extended_p_square_quantile.hpp 290 *)
  | t_extended_p_square_quantile_quadratic => t_quantile (* extended_p_square_quantile.hpp 295 *)
  | t_weighted_extended_p_square_quantile => t_quantile (* extended_p_square_quantile.hpp 308 *)
  | t_weighted_extended_p_square_quantile_quadratic => t_quantile (* extended_p_square_quantile.hpp 321 *)
  | t_tail s => t_abstract_tail (* tail.hpp 345 *)
  | t_tail_variate s v => t_abstract_tail_variate (* tail_variate.hpp 137 *)
  | t_tail_weights s => t_abstract_tail_weights (* tail_variate.hpp 143 *)
  | t_tail_quantile s => t_quantile (* tail_quantile.hpp 138 *)
  | t_weighted_tail_quantile s => t_quantile (* tail_quantile.hpp 152 *)
  | t_non_coherent_tail_mean s => t_abstract_non_coherent_tail_mean (* tail_mean.hpp 226 *)
  | t_non_coherent_weighted_tail_mean s => t_abstract_non_coherent_tail_mean (* tail_mean.hpp 240 *)
  | t_coherent_tail_mean s => t_tail_mean (* tail_mean.hpp 220 *)
  | t_absolute_tail_variate_means s v => t_abstract_absolute_tail_variate_means (* tail_variate_means.hpp 224 *)
  | t_absolute_weighted_tail_variate_means s v => t_abstract_absolute_tail_variate_means (* tail_variate_means.hpp 245 *)
  | t_relative_tail_variate_means s v => t_abstract_relative_tail_variate_means (* tail_variate_means.hpp 231 *)
  | t_relative_weighted_tail_variate_means s v => t_abstract_relative_tail_variate_means (* tail_variate_means.hpp 259 *)
  | t_peaks_over_threshold s => t_abstract_peaks_over_threshold (* peaks_over_threshold.hpp 391 *)
  | t_peaks_over_threshold_prob s => t_abstract_peaks_over_threshold (* peaks_over_threshold.hpp 397 *)
  | t_weighted_peaks_over_threshold s => t_abstract_peaks_over_threshold (* peaks_over_threshold.hpp 411 *)
  | t_weighted_peaks_over_threshold_prob s => t_abstract_peaks_over_threshold (* peaks_over_threshold.hpp 424 *)
  | t_pot_quantile s => t_quantile (* pot_quantile.hpp 171 *)
  | t_weighted_pot_quantile s => t_quantile (* pot_quantile.hpp 191 *)
  | t_pot_tail_mean s => t_tail_mean (* pot_tail_mean.hpp 178 *)
  | t_weighted_pot_tail_mean s => t_tail_mean (* pot_tail_mean.hpp 198 *)
  | t_pot_quantile_prob s => t_quantile (* pot_quantile.hpp 177 *)
  | t_weighted_pot_quantile_prob s => t_quantile (* pot_quantile.hpp 205 *)
  | t_pot_tail_mean_prob s => t_tail_mean (* pot_tail_mean.hpp 184 *)
  | t_weighted_pot_tail_mean_prob s => t_tail_mean (* pot_tail_mean.hpp 212 *)
  | t_immediate_rolling_mean => t_rolling_mean (* rolling_mean.hpp 182 *)
  | t_lazy_rolling_mean => t_rolling_mean (* rolling_mean.hpp 190 *)
  | t_immediate_rolling_variance => t_rolling_variance (* rolling_variance.hpp 253 *)
  | t_lazy_rolling_variance => t_rolling_variance (* rolling_variance.hpp 245 *)
  | _ => t
  end.

(** as_weighted_feature; the default (depends_on.hpp 58-63) is the tag itself. *)
Definition lweighted (t : ltag) : ltag :=
  match t with
  | t_sum => t_weighted_sum (* sum.hpp 128 *)
  | t_sum_kahan => t_weighted_sum_kahan (* sum_kahan.hpp 161 *)
  | t_mean => t_weighted_mean (* mean.hpp 236 *)
  | t_immediate_mean => t_immediate_weighted_mean (* mean.hpp 249 *)
  | t_mean_of_variates v => t_weighted_mean_of_variates v (* mean.hpp 262 *)
  | t_immediate_mean_of_variates v => t_immediate_weighted_mean_of_variates v (* mean.hpp 276 *)
  | t_moment v => t_weighted_moment v (* moment.hpp 119 *)
  | t_variance => t_weighted_variance (* variance.hpp 197 *)
  | t_lazy_variance => t_lazy_weighted_variance (* variance.hpp 213 *)
  | t_skewness => t_weighted_skewness (* skewness.hpp 105 *)
  | t_kurtosis => t_weighted_kurtosis (* kurtosis.hpp 103 *)
  | t_covariance v => t_weighted_covariance v (* covariance.hpp 207 *)
  | t_density => t_weighted_density (* density.hpp 253 *)
  | t_p_square_quantile => t_weighted_p_square_quantile (* p_square_quantile.hpp 258 *)
  | t_p_square_cumulative_distribution => t_weighted_p_square_cumulative_distribution (* p_square_cumul_dist.hpp 266 *)
  | t_extended_p_square => t_weighted_extended_p_square (* extended_p_square.hpp 296 *)
  | t_median => t_weighted_median (* median.hpp 283 *)
  | t_with_density_median => t_with_density_weighted_median (* median.hpp 297 *)
  | t_with_p_square_cumulative_distribution_median => t_with_p_square_cumulative_distribution_weighted_median (* median.hpp 311 *)
  | t_extended_p_square_quantile => t_weighted_extended_p_square_quantile (* extended_p_square_quantile.hpp 302 *)
  | t_extended_p_square_quantile_quadratic => t_weighted_extended_p_square_quantile_quadratic (* extended_p_square_quantile.hpp 316 *)
  | t_tail_quantile s => t_weighted_tail_quantile s (* tail_quantile.hpp 146 *)
  | t_non_coherent_tail_mean s => t_non_coherent_weighted_tail_mean s (* tail_mean.hpp 234 *)
  | t_absolute_tail_variate_means s v => t_absolute_weighted_tail_variate_means s v (* tail_variate_means.hpp 239 *)
  | t_relative_tail_variate_means s v => t_relative_weighted_tail_variate_means s v (* tail_variate_means.hpp 253 *)
  | t_peaks_over_threshold s => t_weighted_peaks_over_threshold s (* peaks_over_threshold.hpp 405 *)
  | t_peaks_over_threshold_prob s => t_weighted_peaks_over_threshold_prob s (* peaks_over_threshold.hpp 418 *)
  | t_pot_quantile s => t_weighted_pot_quantile s (* pot_quantile.hpp 185 *)
  | t_pot_tail_mean s => t_weighted_pot_tail_mean s (* pot_tail_mean.hpp 192 *)
  | t_pot_quantile_prob s => t_weighted_pot_quantile_prob s (* pot_quantile.hpp 199 *)
  | t_pot_tail_mean_prob s => t_weighted_pot_tail_mean_prob s (* pot_tail_mean.hpp 206 *)
  | _ => t
  end.

(** The dependencies, at the lines cited with the constructors. *)
Definition ldeps (t : ltag) : list ltag :=
  match t with
  | t_mean => [t_count; t_sum]
  | t_immediate_mean => [t_count]
  | t_weighted_mean => [t_sum_of_weights; t_weighted_sum]
  | t_immediate_weighted_mean => [t_sum_of_weights]
  | t_mean_of_weights => [t_count; t_sum_of_weights]
  | t_immediate_mean_of_weights => [t_count]
  | t_mean_of_variates v => [t_count; t_sum_of_variates v]
  | t_immediate_mean_of_variates v => [t_count]
  | t_weighted_mean_of_variates v => [t_sum_of_weights; t_weighted_sum_of_variates v]
  | t_immediate_weighted_mean_of_variates v => [t_sum_of_weights]
  | t_moment v => [t_count]
  | t_weighted_moment v => [t_count; t_sum_of_weights]
  | t_variance => [t_count; t_immediate_mean]
  | t_lazy_variance => [t_moment 2; t_mean]
  | t_weighted_variance => [t_count; t_immediate_weighted_mean]
  | t_lazy_weighted_variance => [t_weighted_moment 2; t_weighted_mean]
  | t_skewness => [t_mean; t_moment 2; t_moment 3]
  | t_weighted_skewness => [t_weighted_mean; t_weighted_moment 2; t_weighted_moment 3]
  | t_kurtosis => [t_mean; t_moment 2; t_moment 3; t_moment 4]
  | t_weighted_kurtosis => [t_weighted_mean; t_weighted_moment 2; t_weighted_moment 3; t_weighted_moment 4]
  | t_covariance v => [t_count; t_mean; t_mean_of_variates v]
  | t_weighted_covariance v => [t_count; t_sum_of_weights; t_weighted_mean; t_weighted_mean_of_variates v]
  | t_error_of_mean => [t_lazy_variance; t_count]
  | t_error_of_immediate_mean => [t_variance; t_count]
  | t_density => [t_count; t_min; t_max]
  | t_weighted_density => [t_count; t_sum_of_weights; t_min; t_max]
  | t_p_square_quantile => [t_count]
  | t_p_square_quantile_for_median => [t_count]
  | t_weighted_p_square_quantile => [t_count; t_sum_of_weights]
  | t_weighted_p_square_quantile_for_median => [t_count; t_sum_of_weights]
  | t_p_square_cumulative_distribution => [t_count]
  | t_weighted_p_square_cumulative_distribution => [t_count; t_sum_of_weights]
  | t_extended_p_square => [t_count]
  | t_weighted_extended_p_square => [t_count; t_sum_of_weights]
  | t_median => [t_p_square_quantile_for_median]
  | t_with_density_median => [t_count; t_density]
  | t_with_p_square_cumulative_distribution_median => [t_p_square_cumulative_distribution]
  | t_weighted_median => [t_weighted_p_square_quantile_for_median]
  | t_with_density_weighted_median => [t_count; t_weighted_density]
  | t_with_p_square_cumulative_distribution_weighted_median => [t_weighted_p_square_cumulative_distribution]
  | t_extended_p_square_quantile => [t_extended_p_square]
  | t_extended_p_square_quantile_quadratic => [t_extended_p_square]
  | t_weighted_extended_p_square_quantile => [t_weighted_extended_p_square]
  | t_weighted_extended_p_square_quantile_quadratic => [t_weighted_extended_p_square]
  | t_tail_variate s v => [t_tail s]
  | t_tail_weights s => [t_tail s]
  | t_tail_quantile s => [t_count; t_tail s]
  | t_weighted_tail_quantile s => [t_sum_of_weights; t_tail_weights s]
  | t_non_coherent_tail_mean s => [t_count; t_tail s]
  | t_non_coherent_weighted_tail_mean s => [t_sum_of_weights; t_tail_weights s]
  | t_coherent_tail_mean s => [t_count; t_quantile; t_non_coherent_tail_mean s]
  | t_absolute_tail_variate_means s v => [t_count; t_non_coherent_tail_mean s; t_tail_variate s v]
  | t_absolute_weighted_tail_variate_means s v => [t_non_coherent_weighted_tail_mean s; t_tail_variate s v; t_tail_weights s]
  | t_relative_tail_variate_means s v => [t_count; t_non_coherent_tail_mean s; t_tail_variate s v]
  | t_relative_weighted_tail_variate_means s v => [t_non_coherent_weighted_tail_mean s; t_tail_variate s v; t_tail_weights s]
  | t_peaks_over_threshold s => [t_count]
  | t_peaks_over_threshold_prob s => [t_count; t_tail s]
  | t_weighted_peaks_over_threshold s => [t_sum_of_weights]
  | t_weighted_peaks_over_threshold_prob s => [t_sum_of_weights; t_tail_weights s]
  | t_pot_quantile s => [t_peaks_over_threshold s]
  | t_weighted_pot_quantile s => [t_weighted_peaks_over_threshold s]
  | t_pot_tail_mean s => [t_peaks_over_threshold s; t_pot_quantile s]
  | t_weighted_pot_tail_mean s => [t_weighted_peaks_over_threshold s; t_weighted_pot_quantile s]
  | t_pot_quantile_prob s => [t_peaks_over_threshold_prob s]
  | t_weighted_pot_quantile_prob s => [t_weighted_peaks_over_threshold_prob s]
  | t_pot_tail_mean_prob s => [t_peaks_over_threshold_prob s; t_pot_quantile_prob s]
  | t_weighted_pot_tail_mean_prob s => [t_weighted_peaks_over_threshold_prob s; t_weighted_pot_quantile_prob s]
  | t_rolling_window => [t_rolling_window_plus1]
  | t_rolling_count => [t_rolling_window_plus1]
  | t_rolling_sum => [t_rolling_window_plus1]
  | t_rolling_moment v => [t_rolling_window_plus1; t_rolling_count]
  | t_rolling_mean => [t_rolling_window_plus1; t_rolling_count]
  | t_immediate_rolling_mean => [t_rolling_window_plus1; t_rolling_count]
  | t_lazy_rolling_mean => [t_rolling_sum; t_rolling_count]
  | t_rolling_variance => [t_rolling_window_plus1; t_rolling_count; t_immediate_rolling_mean]
  | t_immediate_rolling_variance => [t_rolling_window_plus1; t_rolling_count; t_immediate_rolling_mean]
  | t_lazy_rolling_variance => [t_rolling_count; t_rolling_mean; t_rolling_moment 2]
  | _ => []
  end.

(** The longest chain of dependencies below a feature, over all its providers. *)
Definition ldepth (f : ltag) : nat :=
  match f with
  | t_mean => 1
  | t_mean_of_weights => 1
  | t_mean_of_variates _ => 1
  | t_moment _ => 1
  | t_variance => 2
  | t_skewness => 2
  | t_kurtosis => 2
  | t_abstract_covariance => 2
  | t_error_of_mean => 3
  | t_error_of_immediate_mean => 3
  | t_density => 1
  | t_p_square_quantile => 1
  | t_p_square_quantile_for_median => 1
  | t_weighted_p_square_quantile_for_median => 1
  | t_p_square_cumulative_distribution => 1
  | t_extended_p_square => 1
  | t_median => 2
  | t_quantile => 3
  | t_abstract_tail_variate => 1
  | t_abstract_tail_weights => 1
  | t_tail_mean => 4
  | t_abstract_non_coherent_tail_mean => 2
  | t_abstract_absolute_tail_variate_means => 3
  | t_abstract_relative_tail_variate_means => 3
  | t_abstract_peaks_over_threshold => 2
  | t_rolling_window => 1
  | t_rolling_count => 1
  | t_rolling_sum => 1
  | t_rolling_moment _ => 2
  | t_rolling_mean => 2
  | t_rolling_variance => 3
  | _ => 0
  end.

(** Comparison of tags (is_same): by position and arguments. *)
Definition lindex (t : ltag) : nat :=
  match t with
  | t_count => 0
  | t_min => 1
  | t_max => 2
  | t_sum => 3
  | t_sum_kahan => 4
  | t_weighted_sum => 5
  | t_weighted_sum_kahan => 6
  | t_sum_of_weights => 7
  | t_sum_of_weights_kahan => 8
  | t_abstract_sum_of_variates => 9
  | t_sum_of_variates _ => 10
  | t_sum_of_variates_kahan _ => 11
  | t_abstract_weighted_sum_of_variates => 12
  | t_weighted_sum_of_variates _ => 13
  | t_weighted_sum_of_variates_kahan _ => 14
  | t_mean => 15
  | t_immediate_mean => 16
  | t_weighted_mean => 17
  | t_immediate_weighted_mean => 18
  | t_mean_of_weights => 19
  | t_immediate_mean_of_weights => 20
  | t_mean_of_variates _ => 21
  | t_immediate_mean_of_variates _ => 22
  | t_weighted_mean_of_variates _ => 23
  | t_immediate_weighted_mean_of_variates _ => 24
  | t_moment _ => 25
  | t_weighted_moment _ => 26
  | t_variance => 27
  | t_lazy_variance => 28
  | t_weighted_variance => 29
  | t_lazy_weighted_variance => 30
  | t_skewness => 31
  | t_weighted_skewness => 32
  | t_kurtosis => 33
  | t_weighted_kurtosis => 34
  | t_abstract_covariance => 35
  | t_covariance _ => 36
  | t_weighted_covariance _ => 37
  | t_error_of_mean => 38
  | t_error_of_immediate_mean => 39
  | t_density => 40
  | t_weighted_density => 41
  | t_p_square_quantile => 42
  | t_p_square_quantile_for_median => 43
  | t_weighted_p_square_quantile => 44
  | t_weighted_p_square_quantile_for_median => 45
  | t_p_square_cumulative_distribution => 46
  | t_weighted_p_square_cumulative_distribution => 47
  | t_extended_p_square => 48
  | t_weighted_extended_p_square => 49
  | t_median => 50
  | t_with_density_median => 51
  | t_with_p_square_cumulative_distribution_median => 52
  | t_weighted_median => 53
  | t_with_density_weighted_median => 54
  | t_with_p_square_cumulative_distribution_weighted_median => 55
  | t_quantile => 56
  | t_extended_p_square_quantile => 57
  | t_extended_p_square_quantile_quadratic => 58
  | t_weighted_extended_p_square_quantile => 59
  | t_weighted_extended_p_square_quantile_quadratic => 60
  | t_abstract_tail => 61
  | t_tail _ => 62
  | t_abstract_tail_variate => 63
  | t_tail_variate _ _ => 64
  | t_abstract_tail_weights => 65
  | t_tail_weights _ => 66
  | t_tail_quantile _ => 67
  | t_weighted_tail_quantile _ => 68
  | t_tail_mean => 69
  | t_abstract_non_coherent_tail_mean => 70
  | t_non_coherent_tail_mean _ => 71
  | t_non_coherent_weighted_tail_mean _ => 72
  | t_coherent_tail_mean _ => 73
  | t_abstract_absolute_tail_variate_means => 74
  | t_abstract_relative_tail_variate_means => 75
  | t_absolute_tail_variate_means _ _ => 76
  | t_absolute_weighted_tail_variate_means _ _ => 77
  | t_relative_tail_variate_means _ _ => 78
  | t_relative_weighted_tail_variate_means _ _ => 79
  | t_abstract_peaks_over_threshold => 80
  | t_peaks_over_threshold _ => 81
  | t_peaks_over_threshold_prob _ => 82
  | t_weighted_peaks_over_threshold _ => 83
  | t_weighted_peaks_over_threshold_prob _ => 84
  | t_pot_quantile _ => 85
  | t_weighted_pot_quantile _ => 86
  | t_pot_tail_mean _ => 87
  | t_weighted_pot_tail_mean _ => 88
  | t_pot_quantile_prob _ => 89
  | t_weighted_pot_quantile_prob _ => 90
  | t_pot_tail_mean_prob _ => 91
  | t_weighted_pot_tail_mean_prob _ => 92
  | t_rolling_window_plus1 => 93
  | t_rolling_window => 94
  | t_rolling_count => 95
  | t_rolling_sum => 96
  | t_rolling_moment _ => 97
  | t_rolling_mean => 98
  | t_immediate_rolling_mean => 99
  | t_lazy_rolling_mean => 100
  | t_rolling_variance => 101
  | t_immediate_rolling_variance => 102
  | t_lazy_rolling_variance => 103
  end.

Definition lside (t : ltag) : bool :=
  match t with
  | t_tail s
  | t_tail_variate s _
  | t_tail_weights s
  | t_tail_quantile s
  | t_weighted_tail_quantile s
  | t_non_coherent_tail_mean s
  | t_non_coherent_weighted_tail_mean s
  | t_coherent_tail_mean s
  | t_absolute_tail_variate_means s _
  | t_absolute_weighted_tail_variate_means s _
  | t_relative_tail_variate_means s _
  | t_relative_weighted_tail_variate_means s _
  | t_peaks_over_threshold s
  | t_peaks_over_threshold_prob s
  | t_weighted_peaks_over_threshold s
  | t_weighted_peaks_over_threshold_prob s
  | t_pot_quantile s
  | t_weighted_pot_quantile s
  | t_pot_tail_mean s
  | t_weighted_pot_tail_mean s
  | t_pot_quantile_prob s
  | t_weighted_pot_quantile_prob s
  | t_pot_tail_mean_prob s
  | t_weighted_pot_tail_mean_prob s =>
      match s with on_left => true | on_right => false end
  | _ => false
  end.

Definition lnum (t : ltag) : nat :=
  match t with
  | t_sum_of_variates v
  | t_sum_of_variates_kahan v
  | t_weighted_sum_of_variates v
  | t_weighted_sum_of_variates_kahan v
  | t_mean_of_variates v
  | t_immediate_mean_of_variates v
  | t_weighted_mean_of_variates v
  | t_immediate_weighted_mean_of_variates v
  | t_moment v
  | t_weighted_moment v
  | t_covariance v
  | t_weighted_covariance v
  | t_tail_variate _ v
  | t_absolute_tail_variate_means _ v
  | t_absolute_weighted_tail_variate_means _ v
  | t_relative_tail_variate_means _ v
  | t_relative_weighted_tail_variate_means _ v
  | t_rolling_moment v => v
  | _ => 0
  end.

Definition ltag_eqb (a b : ltag) : bool :=
  Nat.eqb (lindex a) (lindex b) && Bool.eqb (lside a) (lside b) && Nat.eqb (lnum a) (lnum b).

Definition Library : Lib := mkLib ltag ltag_eqb lfeature ldeps lweighted ldepth.

(** What an accumulator extracts from the set in operator() or result() beyond
    its declared dependencies; each comes with something it does depend on. *)
Definition lextra (t : ltag) : list ltag :=
  match t with
  | t_weighted_variance => [t_sum_of_weights] (* weighted_variance.hpp 96-97 *)
  | t_weighted_tail_quantile s => [t_tail s] (* weighted_tail_quantile.hpp 109 *)
  | t_non_coherent_weighted_tail_mean s => [t_tail s] (* weighted_tail_mean.hpp 125 *)
  | t_absolute_tail_variate_means s v => [t_tail s] (* tail_variate_means.hpp 107 *)
  | t_relative_tail_variate_means s v => [t_tail s] (* tail_variate_means.hpp 107 *)
  | t_absolute_weighted_tail_variate_means s v =>
      [t_sum_of_weights; t_tail s] (* weighted_tail_variate_means.hpp 120, 146 *)
  | t_relative_weighted_tail_variate_means s v =>
      [t_sum_of_weights; t_tail s] (* weighted_tail_variate_means.hpp 120, 146 *)
  | t_weighted_peaks_over_threshold_prob s =>
      [t_tail s] (* weighted_peaks_over_threshold.hpp 188 *)
  | _ => []
  end.

Definition lconsults (t : ltag) : list ltag := ldeps t ++ lextra t.

(** The accumulators whose operator() extracts something; the others do so only
    in result(), or never.  (operator() of tail writes into the tail_variate and
    tail_weights accumulators of the set, tail.hpp 243-246; it reads nothing, and
    these have no operator() of their own.) *)
Definition lon_push (t : ltag) : bool :=
  match t with
  | t_immediate_mean | t_immediate_mean_of_weights | t_immediate_mean_of_variates _ (* mean.hpp 66 *)
  | t_immediate_weighted_mean | t_immediate_weighted_mean_of_variates _ (* weighted_mean.hpp 89 *)
  | t_variance (* variance.hpp 103-108 *)
  | t_weighted_variance (* weighted_variance.hpp 87-97 *)
  | t_covariance _ (* covariance.hpp 136-145 *)
  | t_weighted_covariance _ (* weighted_covariance.hpp 81-91 *)
  | t_density (* density.hpp 95-109 *)
  | t_weighted_density (* weighted_density.hpp 84-98 *)
  | t_p_square_quantile | t_p_square_quantile_for_median (* p_square_quantile.hpp 93 *)
  | t_weighted_p_square_quantile | t_weighted_p_square_quantile_for_median
      (* weighted_p_square_quantile.hpp 75, 153 *)
  | t_p_square_cumulative_distribution (* p_square_cumul_dist.hpp 90 *)
  | t_weighted_p_square_cumulative_distribution (* weighted_p_square_cumul_dist.hpp 78, 156 *)
  | t_extended_p_square (* extended_p_square.hpp 127 *)
  | t_weighted_extended_p_square (* weighted_extended_p_square.hpp 98, 177 *)
  | t_rolling_sum (* rolling_sum.hpp 41-43 *)
  | t_rolling_moment _ (* rolling_moment.hpp 48-50 *)
  | t_rolling_mean | t_immediate_rolling_mean (* rolling_mean.hpp 72-85 *)
  | t_rolling_variance | t_immediate_rolling_variance (* rolling_variance.hpp 126-141 *)
      => true
  | _ => false
  end.

(** The accumulators that are about weights: the weighted implementations, and
    those that use the weight of the samples. *)
Definition lweights (t : ltag) : bool :=
  match t with

  | t_weighted_sum
  | t_weighted_sum_kahan
  | t_sum_of_weights
  | t_sum_of_weights_kahan
  | t_abstract_weighted_sum_of_variates
  | t_weighted_sum_of_variates _
  | t_weighted_sum_of_variates_kahan _
  | t_weighted_mean
  | t_immediate_weighted_mean
  | t_mean_of_weights
  | t_immediate_mean_of_weights
  | t_weighted_mean_of_variates _
  | t_immediate_weighted_mean_of_variates _
  | t_weighted_moment _
  | t_weighted_variance
  | t_lazy_weighted_variance
  | t_weighted_skewness
  | t_weighted_kurtosis
  | t_weighted_covariance _
  | t_weighted_density
  | t_weighted_p_square_quantile
  | t_weighted_p_square_quantile_for_median
  | t_weighted_p_square_cumulative_distribution
  | t_weighted_extended_p_square
  | t_weighted_median
  | t_with_density_weighted_median
  | t_with_p_square_cumulative_distribution_weighted_median
  | t_weighted_extended_p_square_quantile
  | t_weighted_extended_p_square_quantile_quadratic
  | t_abstract_tail_weights
  | t_tail_weights _
  | t_weighted_tail_quantile _
  | t_non_coherent_weighted_tail_mean _
  | t_absolute_weighted_tail_variate_means _ _
  | t_relative_weighted_tail_variate_means _ _
  | t_weighted_peaks_over_threshold _
  | t_weighted_peaks_over_threshold_prob _
  | t_weighted_pot_quantile _
  | t_weighted_pot_tail_mean _
  | t_weighted_pot_quantile_prob _
  | t_weighted_pot_tail_mean_prob _ => true
  | _ => false
  end.

(** Tags without an implementation: abstract features, and the placeholders that
    stop the compilation (statistics_fwd.hpp 25-57). *)
Definition labstract (t : ltag) : bool :=
  match t with
  | t_abstract_sum_of_variates | t_abstract_weighted_sum_of_variates | t_abstract_covariance
  | t_quantile | t_abstract_tail | t_abstract_tail_variate | t_abstract_tail_weights
  | t_tail_mean | t_abstract_non_coherent_tail_mean | t_abstract_absolute_tail_variate_means
  | t_abstract_relative_tail_variate_means | t_abstract_peaks_over_threshold => true
  | _ => false
  end.

(** What a set may contain.  Without a weight type the accumulators about weights do
    not compile (there is no weight argument); with one, the static assertion of
    depends_on.hpp 288-294 rejects error_of<>. *)
Definition laccepted (W : bool) (t : ltag) : bool :=
  negb (labstract t) &&
  (if W then match t with t_error_of_mean | t_error_of_immediate_mean => false | _ => true end
   else negb (lweights t)).
