(** Property theorems C62: histograms of IEEE doubles. *)
From Coq Require Import ZArith List Reals.
From Verif Require Import Num ModelDensity ModelDouble SpecStats SpecDensity SpecDouble SpecDoubleDensity ProofDoubleEx ProofDoubleDensity3 ProofDoubleDensityEx.
Import ListNotations.
Local Open Scope R_scope.

(** For every history of pushes and extractions (up to 2^53 samples, at most 2^960 in magnitude) that fills
    the cache: nothing is undefined; the bins begin at ascending finite positions, the first at the smallest
    cached sample, each within rounding error of where it should; the fraction of a bin is the exact number of
    samples that fall into it over the number of samples, rounded once; the bins share all the samples, and
    the reported fractions add up to 1 but for one unit of roundoff. *)
Theorem C62_histogram : forall (c b : nat) (s0 : double) (ops : list (dens_op double)), let xs := dens_pushes ops in
  (1 <= c)%nat -> (1 <= b)%nat -> (Z.of_nat (b + 1) <= 2 ^ 53)%Z -> (c <= length xs)%nat -> Countable xs -> Within (2 ^ 960) xs ->
  exists s m M (pos : nat -> double) (cnt : nat -> nat),
    density_run DoubleN (d_opp d_max) d_max c b s0 ops = Ok s /\ Spans (firstn c xs) m M /\
    density_result DoubleN s = map (fun i => (pos i, d_div (ofnat DoubleN (cnt i)) (ofnat DoubleN (length xs)))) (seq 0 (b + 2)) /\
    (val (pos 1%nat) = val m /\ (forall i j, (i <= j <= b + 1)%nat -> val (pos i) <= val (pos j)) /\
     forall i, (i <= b + 1)%nat -> finite (pos i) /\
       Rabs (val (pos i) - ExactPosition m M b i) <= 8 * roundoff * (Rabs (val m) + Rabs (val M)) + 4 * INR (b + 1) * tiny) /\
    ((forall i, (i <= b + 1)%nat -> cnt i = length (filter (FallsIn DoubleN b pos i) xs)) /\ list_sum (map cnt (seq 0 (b + 2))) = length xs) /\
    ((forall i, (i <= b + 1)%nat -> let f := d_div (ofnat DoubleN (cnt i)) (ofnat DoubleN (length xs)) in
        finite f /\ 0 <= val f <= 1 /\ Rabs (val f - INR (cnt i) / INR (length xs)) <= roundoff * (INR (cnt i) / INR (length xs))) /\
     Rabs (total RN (fun pf => val (snd pf)) (density_result DoubleN s) - 1) <= roundoff).
Proof. exact double_histogram. Qed.
Print Assumptions C62_histogram.
Example C62_ex : Countable five /\ Within (2 ^ 960) five /\
  fractions 2 2 five = Ok [Some (7205759403792794, -55); Some (5404319552844595, -53); nought; Some (7205759403792794, -55)]%Z.
Proof. exact five_ok. Qed.

(** The last position need not be the largest cached sample, which counts as overflow in exact arithmetic
    (C26).  With 11 bins from 0 to the double 0.1 it lies above, and the maximum is counted in the last bin ... *)
Theorem C62_last_bin_refuted : fractions 2 11 [d_zero; tenth] = Ok ([nought; a_half] ++ repeat nought 9 ++ [a_half; nought]).
Proof. exact last_bin. Qed.
Print Assumptions C62_last_bin_refuted.
(** ... and with 19 bins it lies below, and a sample smaller than the maximum counts as overflow. *)
Theorem C62_early_overflow_refuted : fractions 2 19 [d_zero; tenth; below_tenth; d_zero] = Ok ([nought; a_half] ++ repeat nought 18 ++ [a_half])
  /\ d_lt below_tenth tenth = true.
Proof. exact early_overflow. Qed.
Print Assumptions C62_early_overflow_refuted.
(** When the spread of the cached samples overflows, one position is a NaN, the others are infinite, and every
    sample is in the first bin. *)
Theorem C62_wide_spread_refuted : fractions 2 4 [d_opp d_max; d_max; d_zero; dbl 1 1000; dbl (-1) 1000] = Ok [nought; the_whole; nought; nought; nought; nought].
Proof. exact wide_spread. Qed.
Print Assumptions C62_wide_spread_refuted.
