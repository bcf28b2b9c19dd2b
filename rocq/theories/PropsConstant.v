(** Property theorems C72: samples that are all equal. *)
From Coq Require Import List Arith ZArith Reals QArith Qcanon.
From Verif Require Import Num NumFacts SpecStats SpecRolling SpecTail SpecPSquare SpecDouble SpecConstant ModelBasic ModelRolling ModelPSquare ModelTail
  ModelDouble ProofConstant ProofDoubleEx ProofDoubleConstant.
Import ListNotations.
Local Open Scope nat_scope.

(** ** C72.  Exact arithmetic: the mean is the common value and the variance 0, in both forms; skewness and kurtosis
    are 0 / 0 (numerator and denominator both vanish). *)
Theorem C72_moments : forall K : Num, OrderedLaws K -> forall (sqrt : car K -> car K) (s0 c : car K) (xs : list (car K)),
  xs <> [] -> AllEqual c xs ->
  mean_set_mean K (mean_set_run K (zero K) xs) = c /\ im_mean K (imean_set_run K s0 xs) = c
  /\ vs_var K (var_set_run K (zero K) xs) = zero K /\ lazy_variance_run K (zero K) xs = Some (zero K)
  /\ skewness_run K sqrt (zero K) xs = Some (div K (zero K) (mul K (zero K) (sqrt (zero K))))
  /\ kurtosis_run K (zero K) xs = Some (sub K (div K (zero K) (mul K (zero K) (zero K))) (ofnat K 3)).
Proof. exact equal_exact. Qed.
Print Assumptions C72_moments.
(** whatever the variates and the weights: *)
Theorem C72_covariance : forall K : Num, OrderedLaws K -> forall (c : car K) (h : list (car K * car K)), h <> [] -> AllEqual c (map fst h) ->
  cs_cov K (cov_set_run K (zero K) (zero K) h) = zero K.
Proof. exact equal_covariance. Qed.
Print Assumptions C72_covariance.
Theorem C72_weighted : forall K : Num, OrderedLaws K -> forall (c : car K) (h : list (car K * car K)),
  h <> [] -> AllEqual c (map fst h) -> PrefixWeightsNonzero K h ->
  wmean_set_mean K (wmean_set_run K (zero K) (zero K) h) = c /\ wv_mean K (wvar_set_run K (zero K) (zero K) h) = c
  /\ wv_var K (wvar_set_run K (zero K) (zero K) h) = zero K /\ lazy_weighted_variance_run K (zero K) h = Some (zero K).
Proof. exact equal_weighted. Qed.
Print Assumptions C72_weighted.
(** As soon as the window holds equal samples only, whatever went before: *)
Theorem C72_rolling : forall K : Num, OrderedLaws K -> forall (N M : nat) (c : car K) (xs : list (car K)) (s : roll K),
  1 <= M -> 1 <= N -> roll_run K N M (zero K) xs = Some s -> xs <> [] -> AllEqual c (LastN N xs) ->
  ro_mean K s = c /\ ro_lazy_mean K N s = c /\ ro_variance K N s = zero K /\ ro_lazy_variance K N s = zero K.
Proof. exact equal_rolling. Qed.
Print Assumptions C72_rolling.
Example C72_rolling_ex : LastN 2 (map Q2Qc [5; 1; 3; 3]%Q) = [Q2Qc 3; Q2Qc 3] /\
  option_map (fun s => (this (ro_mean QcN s), this (ro_variance QcN 2 s))) (roll_run QcN 2 1 (zero QcN) (map Q2Qc [5; 1; 3; 3]%Q)) = Some (3%Q, 0%Q).
Proof. split; vm_compute; reflexivity. Qed.
(** Every quantile estimate is the common value, of P-square *)
Theorem C72_p_square : forall K : Num, OrderedLaws K -> forall (c p : car K) (xs : list (car K)), AllEqual c xs -> 5 <= length xs ->
  exists s, pq_run K p xs = Ok s /\ pq_result K s = Ok c.
Proof. exact equal_p_square. Qed.
Print Assumptions C72_p_square.
Theorem C72_extended : forall K : Num, OrderedLaws K -> forall (c : car K) (probs xs : list (car K)),
  AllEqual c xs -> 2 * length probs + 3 <= length xs ->
  exists s rs, ext_run K probs xs = Ok s /\ ext_result K probs s = Ok rs /\ length rs = length probs /\ AllEqual c rs.
Proof. exact equal_extended. Qed.
Print Assumptions C72_extended.
Theorem C72_distribution : forall K : Num, OrderedLaws K -> forall (c : car K) (b : nat) (xs : list (car K)),
  AllEqual c xs -> 1 <= b -> b < length xs ->
  exists s, cd_run K b xs = Ok s /\ length (cd_pairs K s) = b + 1 /\ AllEqual c (map fst (cd_pairs K s)).
Proof. exact equal_distribution. Qed.
Print Assumptions C72_distribution.
(** and of the tails (the non-coherent tail mean as well). *)
Theorem C72_tail : forall K : Num, OrderedLaws K -> forall (c : car K) (H : HeapOps), HeapContract H ->
  forall (lr : side) (ceil : car K -> nat), CeilSpec K ceil ->
  forall (k : nat) (dA : car K) (dV : unit) (ops : list (tail_op (car K) unit)), 0 < k -> WellFormed 0 ops ->
  let xs := map fst (pushes ops) in AllEqual c xs ->
  exists s tl, tail_run H (tail_pred K lr) (tail_init k 0 dA dV) ops = Ok s /\ tail_result H (tail_pred K lr) s = Ok tl /\
  forall p r, Inside01 K p -> IsCeil K (mul K (ofnat K (length xs)) (TailShare K lr p)) r -> r < Nat.min k (length xs) ->
    tail_quantile_result K ceil lr (length xs) tl p = Ok c /\
    (xs <> [] -> 0 < r -> non_coherent_tail_mean_result K ceil lr (length xs) tl p = Ok c).
Proof. exact equal_tail. Qed.
Print Assumptions C72_tail.

(** ** IEEE doubles.  Minimum, maximum and the P-square estimates are exact for every finite value; *)
Theorem C72_double_extremes : forall c xs, finite c -> AllEqual c xs -> xs <> [] -> minimum xs = c /\ maximum xs = c.
Proof. exact equal_extremes. Qed.
Print Assumptions C72_double_extremes.
Theorem C72_double_quantiles : forall c xs, AllEqual c xs -> Countable xs -> Within (2 ^ 1000) xs ->
  (5 <= length xs -> forall p, finite p -> (0 <= val p <= 1)%R ->
     exists s r, pq_run DoubleN p xs = Ok s /\ pq_result DoubleN s = Ok r /\ finite r /\ val r = val c)
  /\ (forall probs, 2 * length probs + 3 <= length xs -> Forall (fun p => finite p /\ (0 <= val p <= 1)%R) probs ->
     exists s rs, ext_run DoubleN probs xs = Ok s /\ ext_result DoubleN probs s = Ok rs /\ length rs = length probs /\
       Forall (fun r => finite r /\ val r = val c) rs).
Proof. exact equal_quantiles. Qed.
Print Assumptions C72_double_quantiles.
(** mean and variance are exact for an integer whose multiples stay below 2^53; *)
Theorem C72_double_integers : forall c z xs, finite c -> val c = IZR z -> AllEqual c xs -> xs <> [] ->
  (Z.of_nat (length xs) * Z.abs z <= 2 ^ 53)%Z -> Countable xs ->
  (finite (lazy_mean xs) /\ val (lazy_mean xs) = val c) /\ (finite (immediate_mean xs) /\ val (immediate_mean xs) = val c)
  /\ (finite (immediate_variance xs) /\ val (immediate_variance xs) = 0%R).
Proof. exact equal_integers. Qed.
Print Assumptions C72_double_integers.
Example C72_double_integers_ex : finite (dbl 7 0) /\ val (dbl 7 0) = IZR 7 /\ AllEqual (dbl 7 0) (repeat (dbl 7 0) 6) /\ Countable (repeat (dbl 7 0) 6).
Proof. exact equal_ex. Qed.
(** in general they are not.  Three samples 0.1: both means exceed 0.1, the immediate variance is positive, the lazy one negative, the
    skewness NaN and the kurtosis larger than 2^53. *)
Theorem C72_double_moments_refuted : let xs := [tenth; tenth; tenth] in
  d_lt tenth (lazy_mean xs) = true /\ d_lt tenth (immediate_mean xs) = true
  /\ d_lt d_zero (immediate_variance xs) = true
  /\ exists v g k, lazy_variance_run DoubleN d_zero xs = Some v /\ d_lt v d_zero = true
     /\ skewness_run DoubleN d_sqrt d_zero xs = Some g /\ nan g
     /\ kurtosis_run DoubleN d_zero xs = Some k /\ d_lt (dbl 1 53) k = true.
Proof. exact tenths_drift. Qed.
Print Assumptions C72_double_moments_refuted.
(** Two samples 0.1: skewness -infinity, kurtosis +infinity. *)
Theorem C72_double_infinite_refuted : let xs := [tenth; tenth] in
  skewness_run DoubleN d_sqrt d_zero xs = Some (d_opp d_inf) /\ kurtosis_run DoubleN d_zero xs = Some d_inf.
Proof. exact two_tenths. Qed.
Print Assumptions C72_double_infinite_refuted.
(** Three samples 0.7: skewness below -2^26 and kurtosis below -2, impossible values (C71_shape). *)
Theorem C72_double_shape_refuted : let xs := [seven_tenths; seven_tenths; seven_tenths] in
  exists g k, skewness_run DoubleN d_sqrt d_zero xs = Some g /\ d_lt g (dbl (-1) 26) = true
   /\ kurtosis_run DoubleN d_zero xs = Some k /\ d_lt k (dbl (-2) 0) = true.
Proof. exact three_sevens. Qed.
Print Assumptions C72_double_shape_refuted.
