(** Property theorems C76: weighted histograms of IEEE doubles. *)
From Coq Require Import ZArith List Reals.
From Verif Require Import Num ModelDensity ModelDouble SpecStats SpecDensity SpecDouble SpecDoubleDensity SpecDoubleVariance SpecDoubleWeighted
  ProofDoubleEx ProofDoubleDensityEx ProofDoubleWTail ProofDoubleWDensity ProofDoubleWDensityEx.
Import ListNotations.
Local Open Scope R_scope.

(** For every history of weighted pushes and extractions that fills the cache, with weights from 0 to [w]: nothing is
    undefined; the bins begin where those of the unweighted histogram (C62) do; every fraction is from 0 to 1 and is
    the exact share of the weight that falls into the bin, but for [4 n u] of it; the fractions add up to 1 as closely. *)
Theorem C76_histogram : forall (c b : nat) (s0 : double) (w : R) (ops : list (dens_op (double * double))), let h := dens_pushes ops in
  (1 <= c)%nat -> (1 <= b)%nat -> (Z.of_nat (b + 1) <= 2 ^ 53)%Z -> (c <= length h)%nat -> Few h -> Within (2 ^ 960) (map fst h) ->
  Moderate w -> Weights w h -> / 2 ^ 450 <= ExactWeight h ->
  exists s m M (pos frac : nat -> double),
    weighted_density_run DoubleN (d_opp d_max) d_max c b s0 ops = Ok s /\ Spans (firstn c (map fst h)) m M /\
    weighted_density_result DoubleN s = map (fun i => (pos i, frac i)) (seq 0 (b + 2)) /\
    (val (pos 1%nat) = val m /\ (forall i j, (i <= j <= b + 1)%nat -> val (pos i) <= val (pos j)) /\
     forall i, (i <= b + 1)%nat -> finite (pos i) /\
       Rabs (val (pos i) - ExactPosition m M b i) <= 8 * roundoff * (Rabs (val m) + Rabs (val M)) + 4 * INR (b + 1) * tiny) /\
    (let share := fun i => ExactWeight (filter (fun e => FallsIn DoubleN b pos i (fst e)) h) / ExactWeight h in
     total RN share (seq 0 (b + 2)) = 1 /\
     (forall i, (i <= b + 1)%nat -> finite (frac i) /\ 0 <= val (frac i) <= 1 /\
        Rabs (val (frac i) - share i) <= 4 * INR (length h) * roundoff * share i + tiny) /\
     Rabs (total RN (fun pf => val (snd pf)) (weighted_density_result DoubleN s) - 1) <= 4 * INR (length h) * roundoff + INR (b + 2) * tiny).
Proof. exact double_whistogram. Qed.
Print Assumptions C76_histogram.
Example C76_ex : dens_pushes (map DPush six) = six /\ (3 <= length six)%nat /\ Few six /\ Within (2 ^ 960) (map fst six) /\ Moderate 1 /\ Weights 1 six /\ / 2 ^ 450 <= ExactWeight six /\
  wfractions 3 2 six = Ok [nought; Some (6004799503160661, -55); Some (6004799503160661, -55); Some (6004799503160661, -53)]%Z.
Proof. exact weighted_six. Qed.

(** The error does grow with the number of samples, unlike that of the unweighted histogram: light samples after a
    heavy one are lost in the total weight but not in their bin, and the fractions add up to more than 1. *)
Theorem C76_one_rounding_refuted : wfractions 2 1 light = Ok [nought; the_whole; Some (5629499534213120, -104)%Z].
Proof. exact light_fractions. Qed.
Print Assumptions C76_one_rounding_refuted.
