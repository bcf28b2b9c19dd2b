(** C61, continued: the accuracy of the coherent tail mean of doubles on the right. *)
From Coq Require Import ZArith List Reals.
From Verif Require Import Num ModelBasic ModelTail ModelDouble ModelDoubleTail SpecTail SpecDouble SpecDoubleVariance SpecDoubleTail ProofDoubleEx ProofDoubleTail ProofDoubleCoherent.
Import ListNotations.
Local Open Scope R_scope.

(** With up to 2^40 samples of at most 2^k in magnitude the right coherent tail mean is finite and off by at most
    [14 r u 2^k] from the documented formula, evaluated exactly: the mean of the [r] most extreme samples, plus the
    quantile over [r] times what the share of the tail differs from [r / n].  The rank [r] is at most one off the
    exact rank; where the cache does not reach beyond it the result is NaN. *)
Theorem C61_coherent_accurate : forall (H : HeapOps), HeapContract H -> forall (c : nat) (dA : double) (dV : unit) (ops : list (tail_op double unit)) (k : Z),
  (0 < c)%nat -> WellFormed 0 ops -> ~ nan dA -> let xs := map fst (pushes ops) in Few xs -> (-200 <= k <= 200)%Z -> Within (powerRZ 2 k) xs ->
  exists s tl, tail_run H (tail_pred DoubleN Right) (tail_init c 0 dA dV) ops = Ok s /\ tail_result H (tail_pred DoubleN Right) s = Ok tl /\
  forall p, Probability p -> xs <> [] ->
  exists r, (1 <= r <= length xs)%nat /\
    (forall R, ExactRank Right (length xs) p R -> (R <= r + 1)%nat /\ (r <= R + 1)%nat) /\
    ((r < Nat.min c (length xs))%nat -> exists a q v, MostExtreme (MoreExtreme DoubleN Right) xs r a /\ OrderStat (MoreExtreme DoubleN Right) xs r q /\
       coherent_tail_mean_result DoubleN d_ceil Right (length xs) tl p = Ok v /\ finite v /\
       Rabs (val v - (ExactMean a + val q / INR r * (1 - val p - INR r / INR (length xs)))) <= 14 * INR r * roundoff * powerRZ 2 k) /\
    ((Nat.min c (length xs) <= r)%nat -> coherent_tail_mean_result DoubleN d_ceil Right (length xs) tl p = NotANumber).
Proof. exact coherent_accurate. Qed.
Print Assumptions C61_coherent_accurate.
Example C61_coherent_accurate_ex : let xs := map fst (pushes ten) in
  WellFormed 0 ten /\ Few xs /\ xs <> [] /\ Within (powerRZ 2 4) xs /\ Probability tenth /\ length xs = 10%nat /\ d_rank Right 10 tenth = 9%nat.
Proof. exact ten_coherent. Qed.
