(** C88: moments of doubles. *)
From Coq Require Import ZArith List Bool Reals Permutation.
From Verif Require Import Num ModelBasic ModelDouble SpecStats SpecDouble SpecDoubleVariance SpecDoubleWeighted SpecDoubleMoment ProofDouble2 ProofDoubleEx ProofDoubleMoment ProofDoubleMoment2.
Import ListNotations.
Local Open Scope R_scope.

(** The moment of order [N] of up to 2^40 samples of at most [b = 2^k] in magnitude, where [b^N] is far from
    overflow and underflow, is finite, at most [b^N] in magnitude and off by at most [2 (n + N) u b^N]. *)
Theorem C88_moment : forall (N : nat) (k : Z) (xs : list double), (1 <= N)%nat -> Few xs -> xs <> [] ->
  (-900 <= k * Z.of_nat N <= 900)%Z -> Within (powerRZ 2 k) xs ->
  exists v, moment_run DoubleN N d_zero xs = Some v /\ finite v /\ Rabs (val v) <= powerRZ 2 (k * Z.of_nat N) /\
    Rabs (val v - ExactMoment N xs) <= 2 * (INR (length xs) + INR N) * roundoff * powerRZ 2 (k * Z.of_nat N).
Proof. exact moment_accurate. Qed.
Print Assumptions C88_moment.

(** The order of the samples matters no more than that. *)
Theorem C88_order : forall (N : nat) (k : Z) (xs ys : list double), Permutation xs ys -> (1 <= N)%nat -> Few xs -> xs <> [] ->
  (-900 <= k * Z.of_nat N <= 900)%Z -> Within (powerRZ 2 k) xs ->
  exists v w, moment_run DoubleN N d_zero xs = Some v /\ moment_run DoubleN N d_zero ys = Some w /\
    Rabs (val v - val w) <= 4 * (INR (length xs) + INR N) * roundoff * powerRZ 2 (k * Z.of_nat N).
Proof. exact moment_orders. Qed.
Print Assumptions C88_order.
Example C88_moment_ex : Few [big1; big2; tenth] /\ (-900 <= 28 * Z.of_nat 5 <= 900)%Z /\ Within (powerRZ 2 28) [big1; big2; tenth].
Proof. exact three_moments_ok. Qed.

(** So with weights from 0 to 2^j, with twice the error. *)
Theorem C88_weighted : forall (N : nat) (k j : Z) (h : list (double * double)), (1 <= N)%nat -> Few h -> h <> [] ->
  (-450 <= k * Z.of_nat N <= 450)%Z -> (-450 <= j <= 450)%Z ->
  Within (powerRZ 2 k) (map fst h) -> Weights (powerRZ 2 j) h -> / 2 ^ 450 <= ExactWeight h ->
  exists v, weighted_moment_run DoubleN N d_zero h = Some v /\ finite v /\
    Rabs (val v - ExactWeightedMoment N h) <= 4 * (INR (length h) + INR N) * roundoff * powerRZ 2 (k * Z.of_nat N).
Proof. exact weighted_moment_accurate. Qed.
Print Assumptions C88_weighted.
Example C88_weighted_ex : let h := [(big1, tenth); (big2, d_zero); (tenth, d_one)] in
  Few h /\ (-450 <= 28 * Z.of_nat 5 <= 450)%Z /\ Within (powerRZ 2 28) (map fst h) /\ Weights (powerRZ 2 0) h /\ / 2 ^ 450 <= ExactWeight h.
Proof. exact weighted_moments_ok. Qed.

(** The moment of integers is rounded only once, by the division, while the magnitudes of their powers sum to at
    most 2^53. *)
Theorem C88_integers : forall (N : nat) (zs : list Z) (xs : list double), (1 <= N)%nat -> Countable xs -> xs <> [] -> Are zs xs ->
  (fold_right (fun z a => Z.abs (z ^ Z.of_nat N) + a) 0 zs <= 2 ^ 53)%Z ->
  exists v, moment_run DoubleN N d_zero xs = Some v /\ finite v /\ Rabs (val v - ExactMoment N xs) <= roundoff * Rabs (ExactMoment N xs) + tiny.
Proof. exact integer_moment. Qed.
Print Assumptions C88_integers.
Example C88_integers_ex : Are [7; -3; 7]%Z [dbl 7 0; dbl (-3) 0; dbl 7 0] /\ (fold_right (fun z a => Z.abs (z ^ Z.of_nat 5) + a) 0 [7; -3; 7] <= 2 ^ 53)%Z.
Proof. exact integer_moments_ok. Qed.

(** The first moment is the lazy mean, bit for bit, and moments of even order are never negative, both also with
    infinities and not-a-numbers. *)
Theorem C88_first : forall xs : list double, moment_run DoubleN 1 d_zero xs = Some (lazy_mean xs).
Proof. exact first_moment. Qed.
Print Assumptions C88_first.
Theorem C88_even : forall (N : nat) (xs : list double) (v : double), (1 <= N)%nat -> Nat.even N = true ->
  moment_run DoubleN N d_zero xs = Some v -> d_lt v d_zero = false.
Proof. exact even_moment. Qed.
Print Assumptions C88_even.

(** Finding: far outside that range a moment can be infinite although all powers and the exact moment are finite. *)
Theorem C88_overflow_refuted : finite large /\ finite (d_mul large large) /\ moment_run DoubleN 2 d_zero [large] = Some (d_mul large large) /\
  ExactMoment 2 [large; large] = val (d_mul large large) /\ moment_run DoubleN 2 d_zero [large; large] = Some d_inf.
Proof. exact moment_overflow. Qed.
Print Assumptions C88_overflow_refuted.
