(** Property theorems C52: samples of a built-in integer type. *)
From Coq Require Import List ZArith Qcanon.
From Verif Require Import Num NumFacts ModelMinMax ModelNumeric ModelInteger SpecStats SpecRolling SpecInteger
  ProofInteger ProofInteger2 ProofInteger3 ProofInteger4.
Import ListNotations.
Open Scope Z_scope.

(** ** sum and lazy mean *)
(** unsigned types and types narrower than int: never undefined, modulo 2^width, exact iff the total fits *)
Theorem C52_sum_wrapping : forall (T : itype) (xs : list Z), StandardWidth T -> signed T = false \/ bits T < 32 ->
  Forall (Representable T) xs ->
  exists r, int_sum_run T xs = Ok r /\ WrapsTo T (Sum xs) r /\ (r = Sum xs <-> Representable T (Sum xs)).
Proof. exact sum_wrapping. Qed.
Print Assumptions C52_sum_wrapping.
(** signed types at least as wide as int: exact iff every running total fits, undefined otherwise *)
Theorem C52_sum_signed : forall (T : itype) (xs : list Z), StandardWidth T -> signed T = true /\ 32 <= bits T ->
  Forall (Representable T) xs ->
  (AtEveryPrefix (fun p => Representable T (Sum p)) xs -> int_sum_run T xs = Ok (Sum xs))
  /\ (~ AtEveryPrefix (fun p => Representable T (Sum p)) xs -> int_sum_run T xs = UB).
Proof. exact sum_wide. Qed.
Print Assumptions C52_sum_signed.
Theorem C52_mean : forall (K : Num), OrderedLaws K -> forall (T : itype), StandardWidth T -> forall xs : list Z,
  Forall (Representable T) xs -> AtEveryPrefix (fun p => Representable T (Sum p)) xs ->
  int_mean_run T K xs = Ok (Mean K (map (of_Z K) xs)).
Proof. exact mean_lazy_exact. Qed.
Print Assumptions C52_mean.
Theorem C52_mean_wrapping : forall (K : Num), OrderedLaws K -> forall (T : itype), StandardWidth T -> forall xs : list Z,
  signed T = false \/ bits T < 32 -> Forall (Representable T) xs -> xs <> [] ->
  exists m, int_mean_run T K xs = Ok m /\ (m = Mean K (map (of_Z K) xs) <-> Representable T (Sum xs)).
Proof. exact mean_lazy_wrapping. Qed.
Print Assumptions C52_mean_wrapping.
Theorem C52_mean_refuted : exists m, Forall (Representable UChar) [200; 100] /\ int_mean_run UChar QcN [200; 100] = Ok m
  /\ m <> Mean QcN (map (of_Z QcN) [200; 100])
  /\ int_immediate_mean_run QcN [200; 100] = Mean QcN (map (of_Z QcN) [200; 100]).
Proof. exact ex_mean_wrong. Qed.
Print Assumptions C52_mean_refuted.
Theorem C52_sum_refuted : Forall (Representable Int) [2147483647; 1; -1] /\ Representable Int (Sum [2147483647; 1; -1])
  /\ int_sum_run Int [2147483647; 1; -1] = UB.
Proof. exact ex_sum_overflow. Qed.
Print Assumptions C52_sum_refuted.

(** ** immediate mean and default variance: exact for all integers *)
Theorem C52_immediate : forall (K : Num), OrderedLaws K -> forall xs : list Z, xs <> [] ->
  int_immediate_mean_run K xs = Mean K (map (of_Z K) xs) /\ int_variance_run K xs = Variance K (map (of_Z K) xs).
Proof. exact immediate_exact. Qed.
Print Assumptions C52_immediate.

(** ** moments and lazy variance *)
Theorem C52_moment : forall (K : Num), OrderedLaws K -> forall (T : itype), StandardWidth T -> forall (n : nat) (xs : list Z),
  (1 <= n)%nat -> Forall (Representable T) xs -> MomentFits T n xs ->
  int_moment_run T K n xs = Ok (Moment K n (map (of_Z K) xs)).
Proof. exact moment_float_exact. Qed.
Print Assumptions C52_moment.
Theorem C52_moment_signed : forall (T : itype), StandardWidth T -> forall (n : nat) (xs : list Z),
  signed T = true /\ 32 <= bits T -> (1 <= n)%nat -> Forall (Representable T) xs -> ~ MomentFits T n xs ->
  int_moment_sum T n xs = UB.
Proof. exact moment_overflow. Qed.
Print Assumptions C52_moment_signed.
Theorem C52_moment_wrapping : forall (T : itype) (n : nat) (xs : list Z), StandardWidth T ->
  (signed T = false /\ 32 <= bits T) \/ (signed T = true /\ bits T = 16) \/ bits T = 8 ->
  (1 <= n)%nat -> Forall (Representable T) xs ->
  exists r, int_moment_sum T n xs = Ok r /\ WrapsTo T (SumOfPowers n xs) r.
Proof. exact moment_wrapping. Qed.
Print Assumptions C52_moment_wrapping.
Theorem C52_lazy_variance : forall (K : Num), OrderedLaws K -> forall (T : itype), StandardWidth T -> forall xs : list Z,
  xs <> [] -> Forall (Representable T) xs -> MomentFits T 2 xs -> AtEveryPrefix (fun p => Representable T (Sum p)) xs ->
  int_lazy_variance_run T K xs = Ok (Variance K (map (of_Z K) xs)).
Proof. exact lazy_variance_exact. Qed.
Print Assumptions C52_lazy_variance.
Theorem C52_lazy_variance_refuted : exists v, Forall (Representable UChar) [20; 20]
  /\ int_lazy_variance_run UChar QcN [20; 20] = Ok v /\ (v < 0)%Qc /\ int_variance_run QcN [20; 20] = 0%Qc.
Proof. exact ex_variance_negative. Qed.
Print Assumptions C52_lazy_variance_refuted.
Theorem C52_moment_ushort_refuted : Forall (Representable UShort) [65535] /\ int_moment_sum UShort 2 [65535] = UB.
Proof. exact ex_moment_ushort. Qed.
Print Assumptions C52_moment_ushort_refuted.
Theorem C52_moment_short_refuted : Forall (Representable Short) [300] /\ int_moment_sum Short 2 [300] = Ok 24464
  /\ SumOfPowers 2 [300] = 90000.
Proof. exact ex_moment_short. Qed.
Print Assumptions C52_moment_short_refuted.

(** ** integers pushed into a set of floating samples *)
Theorem C52_fed : forall (K : Num), OrderedLaws K -> forall (T : itype), StandardWidth T -> forall (n : nat) (xs : list Z),
  (1 <= n)%nat -> Forall (Representable T) xs -> Forall (fun x => Representable T (x ^ Z.of_nat n)) xs ->
  fed_moment_run T K n xs = Ok (Moment K n (map (of_Z K) xs)).
Proof. exact fed_moment_exact. Qed.
Print Assumptions C52_fed.
Theorem C52_fed_overflow : forall (K : Num), forall (T : itype), StandardWidth T -> forall (n : nat) (xs : list Z),
  signed T = true /\ 32 <= bits T -> (1 <= n)%nat -> Forall (Representable T) xs ->
  ~ Forall (fun x => Representable T (x ^ Z.of_nat n)) xs -> fed_moment_run T K n xs = UB.
Proof. exact fed_moment_overflow. Qed.
Print Assumptions C52_fed_overflow.
Theorem C52_fed_variance : forall (K : Num), OrderedLaws K -> forall (T : itype), StandardWidth T -> forall xs : list Z,
  xs <> [] -> Forall (Representable T) xs -> Forall (fun x => Representable T (x ^ 2)) xs ->
  fed_lazy_variance_run T K xs = Ok (Variance K (map (of_Z K) xs)).
Proof. exact fed_variance_exact. Qed.
Print Assumptions C52_fed_variance.
Theorem C52_fed_refuted : Representable Int 65536
  /\ forall K, fed_moment_run Int K 2 [65536] = UB /\ fed_lazy_variance_run Int K [65536] = UB.
Proof. exact ex_fed. Qed.
Print Assumptions C52_fed_refuted.

(** ** rolling statistics *)
Theorem C52_rolling_sum_wrapping : forall (T : itype), StandardWidth T -> forall (N : nat) (xs : list Z),
  signed T = false \/ bits T < 32 -> Forall (Representable T) xs ->
  exists b r, int_rolling_sum_run T N xs = Ok (b, r) /\ WrapsTo T (Sum (LastN N xs)) r.
Proof. exact rolling_sum_wrapping. Qed.
Print Assumptions C52_rolling_sum_wrapping.
Theorem C52_rolling_sum_signed : forall (T : itype), StandardWidth T -> forall (N : nat) (xs : list Z),
  signed T = true /\ 32 <= bits T -> (1 <= N)%nat -> Forall (Representable T) xs ->
  (RollingFits T N xs -> exists b, int_rolling_sum_run T N xs = Ok (b, Sum (LastN N xs)))
  /\ (~ RollingFits T N xs -> int_rolling_sum_run T N xs = UB).
Proof. exact rolling_sum_signed. Qed.
Print Assumptions C52_rolling_sum_signed.
Theorem C52_rolling_sum_refuted : let xs := [-5; 2147483647; 1; -5] in Forall (Representable Int) xs
  /\ AtEveryPrefix (fun p => Representable Int (Sum (LastN 3 p))) xs /\ int_rolling_sum_run Int 3 xs = UB.
Proof. exact ex_rolling_overflow. Qed.
Print Assumptions C52_rolling_sum_refuted.
Theorem C52_lazy_rolling_mean : forall (K : Num), OrderedLaws K -> forall (T : itype), StandardWidth T ->
  forall (N : nat) (xs : list Z), (1 <= N)%nat -> Forall (Representable T) xs -> RollingFits T N xs ->
  int_lazy_rolling_mean_run T K N xs = Ok (Mean K (map (of_Z K) (LastN N xs))).
Proof. exact lazy_rolling_exact. Qed.
Print Assumptions C52_lazy_rolling_mean.
Theorem C52_lazy_rolling_mean_wrapping : forall (K : Num), OrderedLaws K -> forall (T : itype), StandardWidth T ->
  forall (N : nat) (xs : list Z), (1 <= N)%nat -> xs <> [] -> signed T = false \/ bits T < 32 ->
  Forall (Representable T) xs ->
  exists m, int_lazy_rolling_mean_run T K N xs = Ok m
    /\ (m = Mean K (map (of_Z K) (LastN N xs)) <-> Representable T (Sum (LastN N xs))).
Proof. exact lazy_rolling_wrapping. Qed.
Print Assumptions C52_lazy_rolling_mean_wrapping.
(** immediate rolling mean, rolling moment and rolling variance *)
Theorem C52_rolling : forall (K : Num), OrderedLaws K -> forall (T : itype), StandardWidth T ->
  forall (n N : nat) (xs : list Z), (1 <= n)%nat -> (1 <= N)%nat -> xs <> [] ->
  Forall (Representable T) xs -> Forall (fun x => Representable T (x ^ Z.of_nat n)) xs -> ApartFit (promote T) N xs ->
  exists s, int_roll_run T K n N xs = Ok s /\
    ir_mean K s = Mean K (map (of_Z K) (LastN N xs)) /\ ir_moment K N s = Moment K n (map (of_Z K) (LastN N xs)) /\
    ir_variance K N s = (if Nat.ltb (Nat.min (length xs) N) 2 then zero K
                         else SampleVariance K (map (of_Z K) (LastN N xs))).
Proof. exact int_roll_exact. Qed.
Print Assumptions C52_rolling.
(** the last hypothesis holds of every history of an unsigned or narrow type *)
Theorem C52_rolling_unsigned : forall (T : itype), StandardWidth T -> forall (N : nat) (xs : list Z),
  signed T = false \/ bits T < 32 -> Forall (Representable T) xs -> ApartFit (promote T) N xs.
Proof. exact slides_unsigned. Qed.
Print Assumptions C52_rolling_unsigned.
Theorem C52_rolling_mean_refuted : let xs := [-2147483648; 2147483647] in Forall (Representable Int) xs
  /\ forall K, int_roll_run Int K 1 1 xs = UB.
Proof. exact ex_rolling_mean_overflow. Qed.
Print Assumptions C52_rolling_mean_refuted.

(** ** weighted sums, integer samples and integer weights *)
Theorem C52_weighted_sum : forall (S W : itype), StandardWidth S -> StandardWidth W -> forall h : list (Z * Z),
  signed S = signed W ->
  Forall (fun p => Representable S (fst p) /\ Representable W (snd p)) h ->
  Forall (fun p => Representable (common S W) (fst p * snd p)) h ->
  AtEveryPrefix (fun p => Representable (common S W) (WeightedSum p)) h ->
  int_weighted_sum_run S W h = Ok (WeightedSum h).
Proof. exact weighted_exact. Qed.
Print Assumptions C52_weighted_sum.
Theorem C52_weighted_sum_unsigned : forall (S W : itype), StandardWidth S -> StandardWidth W -> forall h : list (Z * Z),
  signed (common S W) = false -> Forall (fun p => Representable S (fst p) /\ Representable W (snd p)) h ->
  exists r, int_weighted_sum_run S W h = Ok r /\ WrapsTo (common S W) (WeightedSum h) r.
Proof. exact weighted_wraps. Qed.
Print Assumptions C52_weighted_sum_unsigned.
Theorem C52_weighted_refuted : Representable Int (-1) /\ Representable UInt 1
  /\ int_weighted_sum_run Int UInt [(-1, 1)] = Ok 4294967295 /\ WeightedSum [(-1, 1)] = -1.
Proof. exact ex_weighted_mixed. Qed.
Print Assumptions C52_weighted_refuted.

Example C52_ex : let xs := [-3; 40000; 12; -40000; 7] in StandardWidth Int /\ Forall (Representable Int) xs
  /\ AtEveryPrefix (fun p => Representable Int (Sum p)) xs /\ int_sum_run Int xs = Ok 16
  /\ MomentFits Int 2 [-3; 40000; 12] /\ int_moment_sum Int 2 [-3; 40000; 12] = Ok 1600000153
  /\ RollingFits Int 2 xs /\ (exists b, int_rolling_sum_run Int 2 xs = Ok (b, -39993)) /\ ApartFit Int 2 xs.
Proof. exact ex_exact. Qed.
