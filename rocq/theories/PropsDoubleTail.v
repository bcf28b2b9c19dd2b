(** Property theorems C61: tails, tail quantiles and tail means of IEEE doubles. *)
From Coq Require Import ZArith List Reals.
From Verif Require Import Num ModelBasic ModelTail ModelDouble ModelDoubleTail SpecTail SpecDouble SpecDoubleTail ProofTailTop ProofDoubleEx ProofDoubleTail.
Import ListNotations.

(** The tail of doubles (infinities, signed zeros and all) that are not NaN: the [k] most extreme samples. *)
Theorem C61_tail : forall (H : HeapOps), HeapContract H ->
  forall (V : Type) (lr : side) (k nv : nat) (dA : double) (dV : V) (ops : list (tail_op double V)),
  (0 < k)%nat -> WellFormed nv ops -> ~ nan dA -> Numbers (map fst (pushes ops)) ->
  exists s t, tail_run H (tail_pred DoubleN lr) (tail_init k nv dA dV) ops = Ok s /\
    tail_result H (tail_pred DoubleN lr) s = Ok t /\ IsTail (MoreExtreme DoubleN lr) k (map fst (pushes ops)) t.
Proof. exact double_tail. Qed.
Print Assumptions C61_tail.

(** The rank is computed in double precision: it is at least 1, at most the number of samples, and off by at
    most one from the exact rank of the probability (never above it on the left).  The quantile is the sample
    of that rank; the mean is the (rounded) mean of that many most extreme samples; NaN where the cache does
    not reach. *)
Theorem C61_quantile_mean : forall (H : HeapOps), HeapContract H ->
  forall (lr : side) (k : nat) (dA : double) (dV : unit) (ops : list (tail_op double unit)),
  (0 < k)%nat -> WellFormed 0 ops -> ~ nan dA -> Numbers (map fst (pushes ops)) ->
  exists s tl, tail_run H (tail_pred DoubleN lr) (tail_init k 0 dA dV) ops = Ok s /\ tail_result H (tail_pred DoubleN lr) s = Ok tl /\
  let xs := map fst (pushes ops) in
  forall p, Probability p -> xs <> [] -> (Z.of_nat (length xs) <= 2 ^ 52)%Z ->
  exists r, (1 <= r <= length xs)%nat /\
    (forall R, ExactRank lr (length xs) p R -> (R <= r + 1)%nat /\ (r <= R + match lr with Left => 0 | Right => 1 end)%nat) /\
    ((r < Nat.min k (length xs))%nat ->
       exists v, tail_quantile_result DoubleN d_ceil lr (length xs) tl p = Ok v /\ OrderStat (MoreExtreme DoubleN lr) xs r v) /\
    ((Nat.min k (length xs) <= r)%nat -> tail_quantile_result DoubleN d_ceil lr (length xs) tl p = NotANumber) /\
    ((r <= Nat.min k (length xs))%nat ->
       exists a, MostExtreme (MoreExtreme DoubleN lr) xs r a /\ non_coherent_tail_mean_result DoubleN d_ceil lr (length xs) tl p = Ok (lazy_mean a)) /\
    ((Nat.min k (length xs) < r)%nat -> non_coherent_tail_mean_result DoubleN d_ceil lr (length xs) tl p = NotANumber).
Proof. exact double_quantile. Qed.
Print Assumptions C61_quantile_mean.
Example C61_ex : Numbers (map fst (pushes ten)) /\ WellFormed 0 ten /\ ~ nan d_zero.
Proof. exact ten_ok. Qed.

(** The exact rank is not always reached.  The double 0.1 is a little more than one tenth, so of ten samples
    the rank is 2; 10 * 0.1 rounds to 1 and the smallest sample is returned. *)
Theorem C61_exact_rank_refuted : Probability tenth /\ ExactRank Left 10 tenth 2 /\ d_rank Left 10 tenth = 1%nat /\
  ten_quantile Left 5 tenth = Ok (Some (4503599627370496, -52)%Z).
Proof. exact rank_off. Qed.
Print Assumptions C61_exact_rank_refuted.

(** A NaN that reaches a cache of one sample is never displaced: no sample compares as more extreme. *)
Theorem C61_nan_refuted : forall (H : HeapOps), HeapContract H -> forall (lr : side) (dA : double) (xs : list double),
  exists s, tail_run H (tail_pred DoubleN lr) (tail_init 1 0 dA tt) (map (fun x => TPush x []) (d_nan :: xs)) = Ok s /\
    tail_result H (tail_pred DoubleN lr) s = Ok [d_nan].
Proof. exact nan_stays. Qed.
Print Assumptions C61_nan_refuted.
