(** C87: results of two sets, put together, are those of one set that got all samples. *)
From Coq Require Import List Arith ZArith QArith Qcanon.
From Verif Require Import Num ModelBasic ModelMinMax ModelTail SpecStats SpecTail SpecParts ProofMinMax ProofTailTop ProofParts ProofPartsEx.
Import ListNotations.

(** Means, variances and moments of the whole from counts, means, variances and moments of the parts. *)
Theorem C87_results : forall (K : Num), FieldLaws K -> forall xs ys : list (car K), xs <> [] -> ys <> [] ->
  let n := ofnat K (length xs) in let m := ofnat K (length ys) in forall N, (1 <= N)%nat ->
  let mean l := mean_set_mean K (mean_set_run K (zero K) l) in let var l := vs_var K (var_set_run K (zero K) l) in
  mean (xs ++ ys) = Pooled K n (mean xs) m (mean ys) /\
  im_mean K (imean_set_run K (zero K) (xs ++ ys)) = Pooled K n (im_mean K (imean_set_run K (zero K) xs)) m (im_mean K (imean_set_run K (zero K) ys)) /\
  var (xs ++ ys) = PooledVar K n (var xs) m (var ys) (sub K (mean ys) (mean xs)) /\
  (exists a b, moment_run K N (zero K) xs = Some a /\ moment_run K N (zero K) ys = Some b /\ moment_run K N (zero K) (xs ++ ys) = Some (Pooled K n a m b)) /\
  (exists u v, lazy_variance_run K (zero K) xs = Some u /\ lazy_variance_run K (zero K) ys = Some v /\
     lazy_variance_run K (zero K) (xs ++ ys) = Some (PooledVar K n u m v (sub K (mean ys) (mean xs)))).
Proof. exact parts_results. Qed.
Print Assumptions C87_results.
Example C87_results_ex : part1 <> [] /\ part2 <> [] /\ vs_var QcN (var_set_run QcN 0%Qc part1) = Q2Qc (14#9) /\ vs_var QcN (var_set_run QcN 0%Qc part2) = Q2Qc (121#16) /\
  vs_var QcN (var_set_run QcN 0%Qc (part1 ++ part2)) = Q2Qc (106#25) /\
  PooledVar QcN (Q2Qc 3) (Q2Qc (14#9)) (Q2Qc 2) (Q2Qc (121#16)) (Q2Qc (-13#12)) = Q2Qc (106#25).
Proof. exact together. Qed.

(** Skewness and kurtosis, with any function for the square root, if both parts have them. *)
Theorem C87_shape : forall (K : Num), FieldLaws K -> forall xs ys : list (car K), xs <> [] -> ys <> [] -> forall sqrt : car K -> car K,
  let n := ofnat K (length xs) in let m := ofnat K (length ys) in
  let mean l := mean_set_mean K (mean_set_run K (zero K) l) in let var l := vs_var K (var_set_run K (zero K) l) in
  let third g l := mul K g (mul K (var l) (sqrt (var l))) in
  let fourth k l := mul K (add K k (ofnat K 3)) (mul K (var l) (var l)) in let d := sub K (mean ys) (mean xs) in
  mul K (var xs) (sqrt (var xs)) <> zero K -> mul K (var ys) (sqrt (var ys)) <> zero K ->
  exists g1 g2 k1 k2, skewness_run K sqrt (zero K) xs = Some g1 /\ skewness_run K sqrt (zero K) ys = Some g2 /\
    kurtosis_run K (zero K) xs = Some k1 /\ kurtosis_run K (zero K) ys = Some k2 /\
    skewness_run K sqrt (zero K) (xs ++ ys) =
      Some (div K (Pooled3 K n (var xs) (third g1 xs) m (var ys) (third g2 ys) d) (mul K (var (xs ++ ys)) (sqrt (var (xs ++ ys))))) /\
    kurtosis_run K (zero K) (xs ++ ys) =
      Some (sub K (div K (Pooled4 K n (var xs) (third g1 xs) (fourth k1 xs) m (var ys) (third g2 ys) (fourth k2 ys) d)
                         (mul K (var (xs ++ ys)) (var (xs ++ ys)))) (ofnat K 3)).
Proof. exact parts_shape. Qed.
Print Assumptions C87_shape.
Example C87_shape_ex : mul QcN (vs_var QcN (var_set_run QcN 0%Qc part1)) (vs_var QcN (var_set_run QcN 0%Qc part1)) <> 0%Qc /\
  mul QcN (vs_var QcN (var_set_run QcN 0%Qc part2)) (vs_var QcN (var_set_run QcN 0%Qc part2)) <> 0%Qc /\
  is (kurtosis_run QcN 0%Qc part1) (-3#2) /\ is (kurtosis_run QcN 0%Qc part2) (-2#1) /\ is (kurtosis_run QcN 0%Qc (part1 ++ part2)) (-48239#44944).
Proof. exact shapes. Qed.

Theorem C87_covariance : forall (K : Num), FieldLaws K -> forall h g : list (car K * car K), h <> [] -> g <> [] ->
  let cov l := cs_cov K (cov_set_run K (zero K) (zero K) l) in let mean l := mean_set_mean K (mean_set_run K (zero K) l) in
  cov (h ++ g) = PooledCov K (ofnat K (length h)) (cov h) (ofnat K (length g)) (cov g)
    (sub K (mean (map fst g)) (mean (map fst h))) (sub K (mean (map snd g)) (mean (map snd h))).
Proof. exact parts_covariance. Qed.
Print Assumptions C87_covariance.
Example C87_covariance_ex : vpart1 <> [] /\ vpart2 <> [] /\ cs_cov QcN (cov_set_run QcN 0%Qc 0%Qc (vpart1 ++ vpart2)) = Q2Qc (-1) /\
  PooledCov QcN (Q2Qc 2) (Q2Qc (3#4)) (Q2Qc 1) (Q2Qc 0) (Q2Qc (9#2)) (Q2Qc (-3#2)) = Q2Qc (-1).
Proof. exact covariances. Qed.

(** With weights: the sums of the weights take the place of the counts. *)
Theorem C87_weighted : forall (K : Num), FieldLaws K -> forall (h g : list (car K * car K)) (sqrt : car K -> car K) N,
  h <> [] -> g <> [] -> (1 <= N)%nat -> PrefixWeightsNonzero K (h ++ g) -> PrefixWeightsNonzero K g ->
  let set l := wmean_set_run K (zero K) (zero K) l in let w1 := wm_W K (set h) in let w2 := wm_W K (set g) in
  let mean l := wmean_set_mean K (set l) in let imean l := wv_mean K (wvar_set_run K (zero K) (zero K) l) in
  let var l := wv_var K (wvar_set_run K (zero K) (zero K) l) in
  wm_W K (set (h ++ g)) = add K w1 w2 /\ wm_sum K (set (h ++ g)) = add K (wm_sum K (set h)) (wm_sum K (set g)) /\
  mean (h ++ g) = Pooled K w1 (mean h) w2 (mean g) /\ imean (h ++ g) = Pooled K w1 (imean h) w2 (imean g) /\
  var (h ++ g) = PooledVar K w1 (var h) w2 (var g) (sub K (mean g) (mean h)) /\
  (exists a b, weighted_moment_run K N (zero K) h = Some a /\ weighted_moment_run K N (zero K) g = Some b /\
     weighted_moment_run K N (zero K) (h ++ g) = Some (Pooled K w1 a w2 b)) /\
  (exists u v, lazy_weighted_variance_run K (zero K) h = Some u /\ lazy_weighted_variance_run K (zero K) g = Some v /\
     lazy_weighted_variance_run K (zero K) (h ++ g) = Some (PooledVar K w1 u w2 v (sub K (mean g) (mean h)))) /\
  (mul K (var h) (sqrt (var h)) <> zero K -> mul K (var g) (sqrt (var g)) <> zero K ->
   let third s l := mul K s (mul K (var l) (sqrt (var l))) in
   let fourth k l := mul K (add K k (ofnat K 3)) (mul K (var l) (var l)) in let d := sub K (mean g) (mean h) in
   exists g1 g2 k1 k2, weighted_skewness_run K sqrt (zero K) h = Some g1 /\ weighted_skewness_run K sqrt (zero K) g = Some g2 /\
     weighted_kurtosis_run K (zero K) h = Some k1 /\ weighted_kurtosis_run K (zero K) g = Some k2 /\
     weighted_skewness_run K sqrt (zero K) (h ++ g) =
       Some (div K (Pooled3 K w1 (var h) (third g1 h) w2 (var g) (third g2 g) d) (mul K (var (h ++ g)) (sqrt (var (h ++ g))))) /\
     weighted_kurtosis_run K (zero K) (h ++ g) =
       Some (sub K (div K (Pooled4 K w1 (var h) (third g1 h) (fourth k1 h) w2 (var g) (third g2 g) (fourth k2 g) d)
                          (mul K (var (h ++ g)) (var (h ++ g)))) (ofnat K 3))).
Proof. exact parts_weighted. Qed.
Print Assumptions C87_weighted.
Theorem C87_weighted_covariance : forall (K : Num), FieldLaws K -> forall h g : list (car K * car K * car K),
  h <> [] -> g <> [] -> PrefixWeightsNonzero K (h ++ g) -> PrefixWeightsNonzero K g ->
  let cov l := wc_cov K (wcov_set_run K (zero K) (zero K) (zero K) l) in
  let samples l := map (fun e => (fst (fst e), snd e)) l in let variates l := map (fun e => (snd (fst e), snd e)) l in
  let mean l := wmean_set_mean K (wmean_set_run K (zero K) (zero K) l) in let weight l := wm_W K (wmean_set_run K (zero K) (zero K) l) in
  cov (h ++ g) = PooledCov K (weight (samples h)) (cov h) (weight (samples g)) (cov g)
    (sub K (mean (samples g)) (mean (samples h))) (sub K (mean (variates g)) (mean (variates h))).
Proof. exact parts_weighted_covariance. Qed.
Print Assumptions C87_weighted_covariance.
Example C87_weighted_ex : PrefixWeightsNonzero QcN (wpart1 ++ wpart2) /\ PrefixWeightsNonzero QcN wpart2 /\
  wmean_set_mean QcN (wmean_set_run QcN 0%Qc 0%Qc (wpart1 ++ wpart2)) = Q2Qc (5#13).
Proof. exact weighted_parts. Qed.

(** Minimum and maximum. *)
Theorem C87_extremes : forall (L : Limits), OrderLaws L -> forall xs ys : list (lcar L),
  min_run L (xs ++ ys) = (if lltb L (min_run L ys) (min_run L xs) then min_run L ys else min_run L xs) /\
  max_run L (xs ++ ys) = (if lltb L (max_run L xs) (max_run L ys) then max_run L ys else max_run L xs).
Proof. exact parts_extremes. Qed.
Print Assumptions C87_extremes.

(** Tails: a set of the same cache size that gets the tails of the parts, in any form, has the tail of the whole. *)
Theorem C87_tail : forall (K : Num), OrderedLaws K -> forall (H : HeapOps), HeapContract H ->
  forall (V : Type) (lr : side) (k nv : nat) (dA : car K) (dV : V) (ops1 ops2 ops : list (tail_op (car K) V)),
  (0 < k)%nat -> WellFormed nv ops1 -> WellFormed nv ops2 -> WellFormed nv ops -> map fst (pushes ops) = map fst (pushes ops1) ++ map fst (pushes ops2) ->
  let shows o t := exists s, tail_run H (tail_pred K lr) (tail_init k nv dA dV) o = Ok s /\ tail_result H (tail_pred K lr) s = Ok t in
  exists t1 t2 t, shows ops1 t1 /\ shows ops2 t2 /\ shows ops t /\
    forall again, WellFormed nv again -> map fst (pushes again) = t1 ++ t2 -> shows again t.
Proof. exact parts_tail. Qed.
Print Assumptions C87_tail.
Example C87_tail_ex : shown_tail 2 [1; 5; 3]%Z = Ok [5#1; 3#1] /\ shown_tail 2 [4; 2; 0]%Z = Ok [4#1; 2#1] /\
  shown_tail 2 [1; 5; 3; 4; 2; 0]%Z = Ok [5#1; 4#1] /\ shown_tail 2 [5; 3; 4; 2]%Z = Ok [5#1; 4#1].
Proof. exact tails. Qed.
