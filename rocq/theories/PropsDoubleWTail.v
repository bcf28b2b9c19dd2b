(** Property theorems C75: weighted tail quantiles and weighted tail means of IEEE doubles. *)
From Coq Require Import ZArith List Reals.
From Verif Require Import Num ModelBasic ModelTail ModelDouble SpecStats SpecTail SpecDouble SpecDoubleTail SpecDoubleVariance SpecDoubleWeighted ProofDoubleEx ProofDoubleWTail.
Import ListNotations.
Local Open Scope R_scope.

(** Samples may be infinite, weights are from 0 to [c].  The weighted tail quantile is the exact weighted quantile
    of the history, but for a weight [q] of the tail that differs from the one asked for by at most [8 n u] of the
    total weight; the weighted tail mean is the weighted mean (C64) of the samples up to there.  Both are NaN only
    if the cached samples do not carry more than that weight. *)
Theorem C75_quantile_mean : forall (H : HeapOps), HeapContract H ->
  forall (lr : side) (k : nat) (dA dV : double) (c : R) (ops : list (tail_op double double)) (hist : list (double * double)),
  (0 < k)%nat -> pushes ops = map (fun e => (fst e, [snd e])) hist -> ~ nan dA -> Numbers (map fst hist) ->
  Few hist -> Moderate c -> Weights c hist -> / 2 ^ 450 <= ExactWeight hist ->
  exists s tl ws, tail_run H (tail_pred DoubleN lr) (tail_init k 1 dA dV) ops = Ok s /\ tail_result H (tail_pred DoubleN lr) s = Ok tl /\
    tail_variate_result H (tail_pred DoubleN lr) s 0 = Ok ws /\
  forall p, Probability p -> / 2 ^ 450 <= ExactShare lr p ->
  let W := wm_W DoubleN (wmean_set_run DoubleN d_zero d_zero hist) in
  let err := 8 * INR (length hist) * roundoff * ExactWeight hist in
  (exists q a v, Rabs (q - ExactWeight hist * ExactShare lr p) <= err /\
     ReachesAt RN (fun x y => MoreExtreme DoubleN lr (fst x) (fst y)) (fun e => val (snd e)) hist q a v /\
     weighted_tail_quantile_result DoubleN lr W tl ws p = Ok (fst v) /\
     non_coherent_weighted_tail_mean_result DoubleN lr W tl ws p = Ok (wmean_set_mean DoubleN (wmean_set_run DoubleN d_zero d_zero (a ++ [v])))) \/
  (weighted_tail_quantile_result DoubleN lr W tl ws p = NotANumber /\ non_coherent_weighted_tail_mean_result DoubleN lr W tl ws p = NotANumber /\
   ExactSum ws < ExactWeight hist * ExactShare lr p + err).
Proof. exact double_wtail. Qed.
Print Assumptions C75_quantile_mean.
Example C75_quantile_mean_ex : Few six /\ Moderate 1 /\ Moderate 8 /\ Within 8 (map fst six) /\ Weights 1 six /\ / 2 ^ 450 <= ExactWeight six /\ Numbers (map fst six) /\
  (forall lr, / 2 ^ 450 <= ExactShare lr half_d) /\ wquantile Left 6 six half_d = Ok (Some (4503599627370496, -50)%Z).
Proof. exact six_ok. Qed.

(** How far that weighted tail mean is from the exact one. *)
Theorem C75_mean_accuracy : forall (b c : R) (lr : side) (h : list (double * double)) (q : R) (a : list (double * double)) (v : double * double),
  Few h -> Moderate b -> Moderate c -> Within b (map fst h) -> Weights c h ->
  ReachesAt RN (fun x y => MoreExtreme DoubleN lr (fst x) (fst y)) (fun e => val (snd e)) h q a v -> / 2 ^ 450 <= q ->
  let m := wmean_set_mean DoubleN (wmean_set_run DoubleN d_zero d_zero (a ++ [v])) in
  finite m /\ Rabs (val m - ExactWeightedMean (a ++ [v])) <= 8 * INR (length (a ++ [v])) * roundoff * b.
Proof. exact double_wtail_mean. Qed.
Print Assumptions C75_mean_accuracy.

(** Finding: the exact weighted quantile is missed where it matters.  Of the samples 1 to 6, each of weight 0.3, the
    first three carry exactly half of the weight; the quantile of 1/2 is reported as 4. *)
Theorem C75_exact_quantile_refuted : exists a v b, six = a ++ v :: b /\ (length a = 2)%nat /\ val half_d = / 2 /\ ExactWeight (a ++ [v]) = ExactWeight six * val half_d /\
  shown_double (fst v) = Some (6755399441055744, -51)%Z /\ wquantile Left 6 six half_d = Ok (Some (4503599627370496, -50)%Z).
Proof. exact fourth_instead_of_third. Qed.
Print Assumptions C75_exact_quantile_refuted.

(** Finding: when weight times probability underflows to 0, the sample before the first is read. *)
Theorem C75_underflow_refuted : Probability least /\ Probability half_d /\ wquantile Left 6 [(d_one, half_d)] least = UB.
Proof. exact vanishing_threshold. Qed.
Print Assumptions C75_underflow_refuted.
