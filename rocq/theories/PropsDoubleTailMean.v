(** C61, continued: the accuracy of tail means of doubles. *)
From Coq Require Import ZArith List Reals.
From Verif Require Import Num ModelBasic ModelTail ModelDouble ModelDoubleTail SpecTail SpecDouble SpecDoubleVariance SpecDoubleTail ProofDoubleTail ProofDoubleTailMean.
Import ListNotations.
Local Open Scope R_scope.

(** With up to 2^40 samples of at most 2^k in magnitude the tail mean is finite and off by at most [2 (r + 1) u 2^k]
    from the exact mean of the [r] most extreme samples, where [r] is at most one off the exact rank. *)
Theorem C61_mean_accurate : forall (H : HeapOps), HeapContract H -> forall (lr : side) (c : nat) (dA : double) (dV : unit) (ops : list (tail_op double unit)) (k : Z),
  (0 < c)%nat -> WellFormed 0 ops -> ~ nan dA -> let xs := map fst (pushes ops) in Few xs -> (-900 <= k <= 900)%Z -> Within (powerRZ 2 k) xs ->
  exists s tl, tail_run H (tail_pred DoubleN lr) (tail_init c 0 dA dV) ops = Ok s /\ tail_result H (tail_pred DoubleN lr) s = Ok tl /\
  forall p, Probability p -> xs <> [] ->
  exists r, (1 <= r <= length xs)%nat /\
    (forall R, ExactRank lr (length xs) p R -> (R <= r + 1)%nat /\ (r <= R + match lr with Left => 0 | Right => 1 end)%nat) /\
    ((r <= Nat.min c (length xs))%nat -> exists a v, MostExtreme (MoreExtreme DoubleN lr) xs r a /\
       non_coherent_tail_mean_result DoubleN d_ceil lr (length xs) tl p = Ok v /\ finite v /\
       Rabs (val v - ExactMean a) <= 2 * (INR r + 1) * roundoff * powerRZ 2 k).
Proof. exact tail_mean_accurate. Qed.
Print Assumptions C61_mean_accurate.
Example C61_mean_accurate_ex : let xs := map fst (pushes ten) in Few xs /\ xs <> [] /\ Within (powerRZ 2 4) xs.
Proof. exact ten_within. Qed.
