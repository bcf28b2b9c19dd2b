(** The tests of /repo/test that use fixed samples, run on the model: each [Example] builds the accumulator set of the
    test (ModelFramework, ModelLibrary, ModelWhole) with samples of type double (ModelDouble), passes the samples and
    compares what is extracted with the numbers that the test expects, BOOST_CHECK_EQUAL and BOOST_CHECK_CLOSE being
    [same] and [close].  They are tests of the model, not theorems about it.  The tests whose samples come from a
    random number generator are left out.  Samples of type int are run as doubles: all the integers are small. *)

From Coq Require Import List Bool Arith ZArith.
From Flocq Require Import IEEE754.BinarySingleNaN.
From Verif Require Import Num ModelTail ModelVector ModelDouble ModelDoubleTail ModelFramework ModelLibrary ModelSets.
From Verif Require Import ModelRollingSets ModelWhole SpecWhole ProofTailTop ProofFrameworkEx.
From Verif Require Import ModelInteger ModelValarray ModelExternal ModelArchive ModelSetArchive ModelObserve ModelLibraryArchive.
Import ListNotations.

(** The double nearest to m / 10^k, and m. *)
Definition dec (m k : Z) : double := d_div (dbl m 0) (dbl (10 ^ k) 0).
Definition int (m : Z) : double := dbl m 0.

(** BOOST_CHECK_EQUAL and BOOST_CHECK_CLOSE (the third argument is a percentage). *)
Definition d_eq (a b : double) : bool := negb (d_lt a b) && negb (d_lt b a) && Beqb a b.
Definition d_abs (a : double) : double := Babs a.
Definition d_close (a b eps : double) : bool :=
  let diff := d_mul (d_abs (d_sub a b)) (int 100) in
  negb (d_lt (d_mul eps (d_abs a)) diff) && negb (d_lt (d_mul eps (d_abs b)) diff) && Beqb diff diff.

(** What is extracted, as a list of numbers. *)
Definition numbers (p : double) (v : value DoubleN (note DoubleN)) : option (list double) :=
  match v with
  | VNat n => Some [int (Z.of_nat n)]
  | VNum x | VRest (NNum x) | VRest (NOut (Ok x)) | VRest (NRoll (RNum x)) => Some [x]
  | VRest (NRoll (RNat n)) => Some [int (Z.of_nat n)]
  | VRest (NList (Ok l)) => Some l
  | VRest (NTail (Ok l) _) => Some l
  | VRest (NVectors (Ok l)) => Some (concat l)
  | VRest (NFun f) => match f p with Ok x => Some [x] | _ => None end
  | VRest (NVFun f) => match f p with Ok l => Some l | _ => None end
  | VRest (NLoop f) => match f 10%nat p with Some (Ok l) => Some l | _ => None end
  | _ => None
  end.
Definition same (p : double) (expected : list double) (v : value DoubleN (note DoubleN)) : bool :=
  match numbers p v with
  | Some l => Nat.eqb (length l) (length expected) && forallb (fun ab => d_eq (fst ab) (snd ab)) (combine l expected)
  | None => false
  end.
Definition close (p : double) (eps : double) (expected : list double) (v : value DoubleN (note DoubleN)) : bool :=
  match numbers p v with
  | Some l => Nat.eqb (length l) (length expected) && forallb (fun ab => d_close (fst ab) (snd ab) eps) (combine l expected)
  | None => false
  end.

(** The sets: a window of [win] samples, a tail of [cache] samples, the other arguments unused. *)
Definition args (win cache : nat) : Args DoubleN :=
  mkArgs DoubleN (d_opp d_max) d_max win 1 1 (dec 5 1) 4 [] cache d_zero d_zero sorting_heap d_ceil (fun x _ => x).
(** acc(x), acc(x, weight = w), acc(x, covariate1 = v), with the variate as a number and as a vector. *)
Definition pk (x w v : double) (vs : list double) : pack DoubleN := mkPack DoubleN x w (fun _ => v) (fun _ => vs).
Definition smp (x : double) : pack DoubleN := pk x d_one d_zero [].
Definition wtd (x w : double) : pack DoubleN := pk x w d_zero [].
Definition cov (x v : double) : pack DoubleN := pk x d_one v [v].
Definition wcv (x w v : double) : pack DoubleN := pk x w v [v].

Definition after_ (win cache : nat) (W : bool) (fs : list ltag) (ps : list (pack DoubleN)) (t : ltag) : value DoubleN (note DoubleN) :=
  Extracted DoubleN (args win cache) d_sqrt in_order W (map plain fs)
    (map (Push Library (WholeSets DoubleN (args win cache) d_sqrt)) ps) t.
Definition after (W : bool) (fs : list ltag) (ps : list (pack DoubleN)) (t : ltag) : value DoubleN (note DoubleN) :=
  after_ 1 1 W fs ps t.
(** The tolerances 1e-4 .. 1e-10 of the tests. *)
Definition e (k : Z) : double := dec 1 k.
Local Notation is_ := (same d_zero).
Local Notation near := (close d_zero).
(** count.cpp 16-33, min.cpp, max.cpp 16-29. *)
Example test_count : map (fun n => is_ [int (Z.of_nat n)] (after false [t_count] (repeat (smp d_one) n) t_count)) [1; 2; 3; 4; 5]%nat
  = repeat true 5.
Proof. vm_compute; reflexivity. Qed.
Definition s3 : list (pack DoubleN) := map smp [int 1; int 0; int 2].
Example test_min : map (fun q => is_ [int (snd q)] (after false [t_min] (firstn (fst q) s3) t_min)) [(1%nat, 1%Z); (2%nat, 0%Z); (3%nat, 0%Z)]
  = [true; true; true].
Proof. vm_compute; reflexivity. Qed.
Example test_max : map (fun q => is_ [int (snd q)] (after false [t_max] (firstn (fst q) s3) t_max)) [(1%nat, 1%Z); (2%nat, 1%Z); (3%nat, 2%Z)]
  = [true; true; true].
Proof. vm_compute; reflexivity. Qed.

(** sum.cpp 16-41: sum is the weighted sum in a weighted set. *)
Definition s4 : list (pack DoubleN) := [wcv (int 1) (int 2) (int 3); wcv (int 2) (int 4) (int 6); wcv (int 3) (int 6) (int 9)].
Example test_sum : map (fun q => let '(n, a, b, c) := q in
    map (fun r => is_ [int (snd r)] (after true [t_sum; t_sum_of_weights; t_sum_of_variates 0] (firstn n s4) (fst r)))
      [(t_sum, a); (t_sum_of_weights, b); (t_sum_of_variates 0, c)])
    [(1%nat, 2, 2, 3); (2%nat, 10, 6, 9); (3%nat, 28, 12, 18)]%Z
  = [[true; true; true]; [true; true; true]; [true; true; true]].
Proof. vm_compute; reflexivity. Qed.
(** weighted_sum.cpp 16-39. *)
Definition s5 : list (pack DoubleN) := [wcv (int 1) (int 2) (int 3); wcv (int 2) (int 3) (int 6); wcv (int 4) (int 6) (int 9)].
Example test_weighted_sum : map (fun q => let '(n, a, b) := q in
    map (fun r => is_ [int (snd r)] (after true [t_weighted_sum; t_weighted_sum_of_variates 0] (firstn n s5) (fst r)))
      [(t_weighted_sum, a); (t_weighted_sum_of_variates 0, b)])
    [(1%nat, 2, 6); (2%nat, 8, 24); (3%nat, 32, 78)]%Z
  = [[true; true]; [true; true]; [true; true]].
Proof. vm_compute; reflexivity. Qed.

(** mean.cpp 33-82. *)
Definition s6 : list (pack DoubleN) := [cov (int 1) (int 3); cov (int 0) (int 4); cov (int 2) (int 8)].
Example test_mean : map (fun q => let '(n, m, v, s) := q in
    [near (e 5) [m] (after false [t_mean; t_mean_of_variates 0] (firstn n s6) t_mean);
     near (e 5) [v] (after false [t_mean; t_mean_of_variates 0] (firstn n s6) (t_mean_of_variates 0));
     is_ [int (Z.of_nat n)] (after false [t_mean; t_mean_of_variates 0] (firstn n s6) t_count);
     is_ [s] (after false [t_mean; t_mean_of_variates 0] (firstn n s6) t_sum);
     near (e 5) [m] (after false [t_immediate_mean; t_immediate_mean_of_variates 0] (firstn n s6) t_mean);
     near (e 5) [v] (after false [t_immediate_mean; t_immediate_mean_of_variates 0] (firstn n s6) (t_mean_of_variates 0))])
    [(1%nat, int 1, int 3, int 1); (2%nat, dec 5 1, dec 35 1, int 1); (3%nat, int 1, int 5, int 3)]
  = repeat (repeat true 6) 3.
Proof. vm_compute; reflexivity. Qed.
(** weighted_mean.cpp 33-102; the last check of the immediate set asks for mean_of_variates. *)
Definition s7 : list (pack DoubleN) := [wcv (int 1) (int 2) (int 3); wcv (int 0) (int 4) (int 4); wcv (int 2) (int 9) (int 8)].
Definition f7 : list ltag := [t_weighted_mean; t_mean_of_weights; t_weighted_mean_of_variates 0].
Definition f7i : list ltag := [t_immediate_weighted_mean; t_immediate_mean_of_weights; t_immediate_weighted_mean_of_variates 0].
Example test_weighted_mean : map (fun q => let '(n, m, w, v, s) := q in
    [near (e 5) [m] (after true f7 (firstn n s7) t_weighted_mean); near (e 5) [w] (after true f7 (firstn n s7) t_mean_of_weights);
     near (e 5) [v] (after true f7 (firstn n s7) (t_weighted_mean_of_variates 0)); is_ [s] (after true f7 (firstn n s7) t_sum);
     is_ [int (Z.of_nat n)] (after true f7 (firstn n s7) t_count);
     near (e 5) [m] (after true f7i (firstn n s7) t_weighted_mean); near (e 5) [w] (after true f7i (firstn n s7) t_mean_of_weights);
     near (e 5) [v] (after true f7i (firstn n s7) (t_weighted_mean_of_variates 0));
     near (e 5) [v] (after true f7i (firstn n s7) (t_mean_of_variates 0))])
    [(1%nat, int 1, int 2, int 3, int 2); (2%nat, d_div (int 1) (int 3), int 3, d_div (int 11) (int 3), int 2);
     (3%nat, d_div (int 4) (int 3), int 5, d_div (int 94) (int 15), int 20)]
  = repeat (repeat true 9) 3.
Proof. vm_compute; reflexivity. Qed.

(** moment.cpp 16-33, weighted_moment.cpp 16-31. *)
Example test_moment :
  near (e 5) [int 15] (after false [t_moment 2] (map (fun z => smp (int z)) [2; 4; 5]%Z) (t_moment 2))
  && near (e 5) [int 1106] (after false [t_moment 5] (map (fun z => smp (int z)) [2; 3; 4; 5]%Z) (t_moment 5)) = true.
Proof. vm_compute; reflexivity. Qed.
Definition s8 : list (pack DoubleN) := [wtd (dec 21 1) (dec 7 1); wtd (dec 27 1) (dec 14 1); wtd (dec 18 1) (dec 9 1)].
Example test_weighted_moment :
  near (e 5) [dec 5403 3] (after true [t_weighted_moment 2] s8 (t_weighted_moment 2))
  && near (e 5) [dec 54854182 5] (after true [t_weighted_moment 7] s8 (t_weighted_moment 7)) = true.
Proof. vm_compute; reflexivity. Qed.

(** variance.cpp 20-46, weighted_variance.cpp 22-49. *)
Definition s9 : list (pack DoubleN) := map (fun z => smp (int z)) [1; 2; 3; 4; 5]%Z.
Example test_variance :
  [is_ [int 5] (after false [t_lazy_variance] s9 t_count); near (e 5) [int 3] (after false [t_lazy_variance] s9 t_mean);
   near (e 5) [int 11] (after false [t_lazy_variance] s9 (t_moment 2)); near (e 5) [int 2] (after false [t_lazy_variance] s9 t_variance);
   is_ [int 5] (after false [t_variance] s9 t_count); near (e 5) [int 3] (after false [t_variance] s9 t_mean);
   near (e 5) [int 2] (after false [t_variance] s9 t_variance)]
  = repeat true 7.
Proof. vm_compute; reflexivity. Qed.
Definition s10 : list (pack DoubleN) := map (fun z => wtd (int (fst z)) (int (snd z))) [(1, 2); (2, 3); (3, 1); (4, 4); (5, 1)]%Z.
Example test_weighted_variance :
  [is_ [int 5] (after true [t_lazy_weighted_variance] s10 t_count);
   near (e 5) [dec 29090909 7] (after true [t_lazy_weighted_variance] s10 t_weighted_mean);
   near (e 5) [dec 101818182 7] (after true [t_lazy_weighted_variance] s10 (t_weighted_moment 2));
   near (e 5) [dec 17190083 7] (after true [t_lazy_weighted_variance] s10 t_weighted_variance);
   is_ [int 5] (after true [t_weighted_variance] s10 t_count);
   near (e 5) [dec 29090909 7] (after true [t_weighted_variance] s10 t_weighted_mean);
   near (e 5) [dec 17190083 7] (after true [t_weighted_variance] s10 t_weighted_variance)]
  = repeat true 7.
Proof. vm_compute; reflexivity. Qed.

(** skewness.cpp 41-50, kurtosis.cpp 42-52, and weighted. *)
Definition s11 : list (pack DoubleN) := map (fun z => smp (int z)) [2; 7; 4; 9; 3]%Z.
Example test_shape :
  [is_ [int 5] (after false [t_kurtosis] s11 t_mean); is_ [d_div (int 159) (int 5)] (after false [t_kurtosis] s11 (t_moment 2));
   is_ [d_div (int 1171) (int 5)] (after false [t_kurtosis] s11 (t_moment 3)); is_ [int 1863] (after false [t_kurtosis] s11 (t_moment 4));
   near (e 6) [dec (-139965397924) 11] (after false [t_kurtosis] s11 t_kurtosis);
   is_ [d_div (int 1171) (int 5)] (after false [t_skewness] s11 (t_moment 3));
   near (e 6) [dec 406040288214 12] (after false [t_skewness] s11 t_skewness)]
  = repeat true 7.
Proof. vm_compute; reflexivity. Qed.
Definition s12 : list (pack DoubleN) := map (fun z => wtd (int (fst z)) (int (snd z))) [(2, 4); (7, 1); (4, 3); (9, 1); (3, 2)]%Z.
Example test_weighted_shape :
  [is_ [d_div (int 42) (int 11)] (after true [t_weighted_kurtosis] s12 t_weighted_mean);
   is_ [d_div (int 212) (int 11)] (after true [t_weighted_kurtosis] s12 (t_weighted_moment 2));
   is_ [d_div (int 1350) (int 11)] (after true [t_weighted_kurtosis] s12 (t_weighted_moment 3));
   is_ [d_div (int 9956) (int 11)] (after true [t_weighted_kurtosis] s12 (t_weighted_moment 4));
   near (e 6) [dec 58137026432 11] (after true [t_weighted_kurtosis] s12 t_weighted_kurtosis);
   is_ [d_div (int 1350) (int 11)] (after true [t_weighted_skewness] s12 (t_weighted_moment 3));
   near (e 6) [dec 130708406282 11] (after true [t_weighted_skewness] s12 t_weighted_skewness)]
  = repeat true 7.
Proof. vm_compute; reflexivity. Qed.

(** error_of.cpp 16-45. *)
Definition s13 : list (pack DoubleN) := map smp [dec 11 1; dec 12 1; dec 13 1].
Example test_error_of :
  [near (e 4) [dec 57735 6] (after false [t_error_of_mean] s13 t_error_of_mean);
   near (e 4) [dec 57735 6] (after false [t_error_of_immediate_mean] s13 t_error_of_immediate_mean);
   near (e 4) [dec 57735 6] (after false [t_mean; t_error_of_mean] s13 t_error_of_mean);
   near (e 4) [dec 57735 6] (after false [t_immediate_mean; t_error_of_immediate_mean] s13 t_error_of_immediate_mean)]
  = repeat true 4.
Proof. vm_compute; reflexivity. Qed.

(** covariance.cpp 24-91, 94-118, weighted_covariance.cpp 24-91: the vectors one component at a time (C70: the
    accumulators treat the components separately). *)
Definition cv (l : list (Z * Z)) : list (pack DoubleN) := map (fun z => cov (int (fst z)) (int (snd z))) l.
Definition wc (l : list (Z * Z)) : list (pack DoubleN) :=
  map (fun z => wcv (int (fst (fst z))) (dec (snd z) 1) (int (snd (fst z)))) (combine l [11; 22; 33; 44]%Z).
Definition co (l : list (Z * Z)) : value DoubleN (note DoubleN) := after false [t_covariance 0] (cv l) (t_covariance 0).
Definition wco (l : list (Z * Z)) : value DoubleN (note DoubleN) := after true [t_weighted_covariance 0] (wc l) (t_weighted_covariance 0).
Example test_covariance :
  [near (e 6) [dec (-175) 2] (co [(1, 2); (1, 4); (2, 3); (6, 1)]%Z); is_ [int 0] (co []);
   near (e 6) [dec 175 2] (co [(1, 1); (3, 1); (2, 2); (4, 6)]%Z); near (e 6) [dec (-1125) 3] (co [(2, 1); (4, 1); (5, 2); (2, 6)]%Z);
   near (e 6) [dec 175 2] (co [(1, 1); (1, 3); (2, 2); (6, 4)]%Z); near (e 6) [dec (-1125) 3] (co [(1, 2); (1, 4); (2, 5); (6, 2)]%Z)]
  = repeat true 6.
Proof. vm_compute; reflexivity. Qed.
Example test_weighted_covariance :
  [near (e 6) [dec (-239) 2] (wco [(1, 2); (1, 4); (2, 3); (6, 1)]%Z);
   near (e 6) [dec 193 2] (wco [(1, 1); (3, 1); (2, 2); (4, 6)]%Z); near (e 6) [dec (-209) 2] (wco [(2, 1); (4, 1); (5, 2); (2, 6)]%Z);
   near (e 6) [dec 193 2] (wco [(1, 1); (1, 3); (2, 2); (6, 4)]%Z); near (e 6) [dec (-209) 2] (wco [(1, 2); (1, 4); (2, 5); (6, 2)]%Z)]
  = repeat true 5.
Proof. vm_compute; reflexivity. Qed.

(** rolling_count.cpp 17-36, rolling_sum.cpp 17-36. *)
Example test_rolling_count :
  map (fun n => is_ [int (Z.of_nat (min 3 n))] (after_ 3 1 false [t_rolling_count] (repeat (smp d_one) n) t_rolling_count))
    [0; 1; 2; 3; 4; 5]%nat = repeat true 6.
Proof. vm_compute; reflexivity. Qed.
Example test_rolling_sum : map (fun q => is_ [int (snd q)] (after_ 3 1 false [t_rolling_sum] (firstn (fst q) s9) t_rolling_sum))
    [(0%nat, 0); (1%nat, 1); (2%nat, 3); (3%nat, 6); (4%nat, 9); (5%nat, 12)]%Z = repeat true 6.
Proof. vm_compute; reflexivity. Qed.
(** rolling_mean.cpp 27-70. *)
Definition up7 : list (pack DoubleN) := map (fun z => smp (int z)) [1; 2; 3; 4; 5; 6; 7]%Z.
Definition down7 : list (pack DoubleN) := map (fun z => smp (int z)) [7; 6; 5; 4; 3; 2; 1]%Z.
Definition rm (t : ltag) (ps : list (pack DoubleN)) (means : list double) : bool :=
  forallb (fun q => near (e 5) [snd q] (after_ 5 1 false [t] (firstn (fst q) ps) t_rolling_mean))
    (combine (seq 1 (length means)) means).
Example test_rolling_mean :
  map (fun t => rm t up7 [int 1; dec 15 1; int 2; dec 25 1; int 3; int 4; int 5]) [t_immediate_rolling_mean; t_lazy_rolling_mean; t_rolling_mean]
  ++ [rm t_immediate_rolling_mean down7 [int 7; dec 65 1; int 6; dec 55 1; int 5; int 4; int 3]]
  = repeat true 4.
Proof. vm_compute; reflexivity. Qed.
(** rolling_moment.cpp 25-62. *)
Definition rmo (N : nat) (zs : list Z) (moments : list double) : bool :=
  forallb (fun q => near (e 5) [snd q] (after_ 3 1 false [t_rolling_moment N] (firstn (fst q) (map (fun z => smp (int z)) zs)) (t_rolling_moment N)))
    (combine (seq 1 (length moments)) moments).
Example test_rolling_moment :
  rmo 2 [2; 4; 5; 6]%Z [int 4; int 10; int 15; d_div (int 77) (int 3)]
  && rmo 5 [2; 3; 4; 5]%Z [int 32; dec 1375 1; int 433; int 1464] = true.
Proof. vm_compute; reflexivity. Qed.
(** rolling_variance.cpp 46-106.  The first check, of a variance that is exactly zero, is an equality. *)
Definition s14 : list (pack DoubleN) := map smp [dec 12 1; dec 23 1; dec 34 1; dec 45 1; dec 4 1; dec 22 1; dec 71 1; int 4].
Definition rv (t : ltag) : list bool :=
  map (fun q => near (e 10) [snd q] (after_ 4 1 false [t] (firstn (fst q) s14) t_rolling_variance))
    (combine (seq 1 8) [int 0; dec 605 3; dec 121 2; dec 201666666666667 14; dec 305666666666667 14; dec 30825 4; dec 841666666666667 14; dec 81625 4]).
Example test_rolling_variance : map rv [t_immediate_rolling_variance; t_lazy_rolling_variance; t_rolling_variance] = repeat (repeat true 8) 3.
Proof. vm_compute; reflexivity. Qed.

(** tail.cpp 33-115. *)
Definition s15 : list (pack DoubleN) :=
  map (fun z => let '(x, w, v) := z in wcv (int x) (int w) (int v)) [(8, 2, 3); (16, 7, 1); (12, 6, 4); (24, 4, 5); (1, 1, 9); (9, 3, 7)]%Z.
Definition tailed (s : ModelLibrary.side) (n : nat) (xs vs ws : list Z) : bool :=
  let got t := after_ 1 4 true [t_tail_weights s; t_tail_variate s 0] (firstn n s15) t in
  is_ (map int xs) (got (t_tail s)) && is_ (map int vs) (got (t_tail_variate s 0)) && is_ (map int ws) (got (t_tail_weights s)).
Example test_right_tail :
  [tailed on_right 1 [8] [3] [2]; tailed on_right 2 [16; 8] [1; 3] [7; 2]; tailed on_right 3 [16; 12; 8] [1; 4; 3] [7; 6; 2];
   tailed on_right 4 [24; 16; 12; 8] [5; 1; 4; 3] [4; 7; 6; 2]; tailed on_right 5 [24; 16; 12; 8] [5; 1; 4; 3] [4; 7; 6; 2];
   tailed on_right 6 [24; 16; 12; 9] [5; 1; 4; 7] [4; 7; 6; 3]]%Z = repeat true 6.
Proof. vm_compute; reflexivity. Qed.
Example test_left_tail :
  [tailed on_left 1 [8] [3] [2]; tailed on_left 2 [8; 16] [3; 1] [2; 7]; tailed on_left 3 [8; 12; 16] [3; 4; 1] [2; 6; 7];
   tailed on_left 4 [8; 12; 16; 24] [3; 4; 1; 5] [2; 6; 7; 4]; tailed on_left 5 [1; 8; 12; 16] [9; 3; 4; 1] [1; 2; 6; 7];
   tailed on_left 6 [1; 8; 9; 12] [9; 3; 7; 4] [1; 2; 3; 6]]%Z = repeat true 6.
Proof. vm_compute; reflexivity. Qed.

(** tail_variate_means.cpp 20-126. *)
Definition vecs (ws : list Z) : list (pack DoubleN) :=
  map (fun z => let '(x, vs, w) := z in pk (int x) (dec w 1) d_zero (map int vs))
    (combine [(100, [10; 20; 30; 40]); (50, [26; 4; 17; 3]); (200, [46; 64; 40; 50]); (80, [1; 3; 70; 6]); (20, [2; 2; 2; 14])] ws)%Z.
Definition tvm (t : ltag) (p : double) : list double -> bool :=
  fun l => same p l (after_ 1 5 false [t] (vecs [10; 10; 10; 10; 10]%Z) t).
Local Notation "a // b" := (d_div (int a) (int b)) (at level 40).
Example test_tail_variate_means :
  [tvm (t_relative_tail_variate_means on_right 0) (dec 7 1) [14 // 75; 7 // 25; 7 // 30; 3 // 10];
   tvm (t_relative_tail_variate_means on_left 0) (dec 3 1) [14 // 35; 3 // 35; 19 // 70; 17 // 70];
   tvm (t_absolute_tail_variate_means on_right 0) (dec 7 1) [int 28; int 42; int 35; int 45];
   tvm (t_absolute_tail_variate_means on_left 0) (dec 3 1) [int 14; int 3; dec 95 1; dec 85 1]]
  = repeat true 4.
Proof. vm_compute; reflexivity. Qed.
(** weighted_tail_variate_means.cpp 20-129; the expected numbers are computed in double precision, as the test does. *)
Definition wtvm (t : ltag) (p : double) : list double -> bool :=
  fun l => same p l (after_ 1 5 true [t] (vecs [8; 9; 10; 11; 12]%Z) t).
Local Infix "*." := d_mul (at level 40).
Local Infix "+." := d_add (at level 50).
Local Infix "/." := d_div (at level 40).
Definition two (w1 : double) (a : Z) (w2 : double) (b : Z) : double := w1 *. int a +. w2 *. int b.
Definition d08 := dec 8 1.
Definition d09 := dec 9 1.
Definition d10 := dec 10 1.
Definition d12 := dec 12 1.
Example test_weighted_tail_variate_means :
  [wtvm (t_relative_weighted_tail_variate_means on_right 0) (dec 7 1)
     (map (fun ab => two d08 (fst ab) d10 (snd ab) /. two d08 100 d10 200) [(10, 46); (20, 64); (30, 40); (40, 50)]%Z);
   wtvm (t_relative_weighted_tail_variate_means on_left 0) (dec 3 1)
     (map (fun ab => two d09 (fst ab) d12 (snd ab) /. two d09 50 d12 20) [(26, 2); (4, 2); (17, 2); (3, 14)]%Z);
   wtvm (t_absolute_weighted_tail_variate_means on_right 0) (dec 7 1)
     (map (fun ab => two d08 (fst ab) d10 (snd ab) /. dec 18 1) [(10, 46); (20, 64); (30, 40); (40, 50)]%Z);
   wtvm (t_absolute_weighted_tail_variate_means on_left 0) (dec 3 1)
     (map (fun ab => two d09 (fst ab) d12 (snd ab) /. dec 21 1) [(26, 2); (4, 2); (17, 2); (3, 14)]%Z);
   wtvm (t_relative_weighted_tail_variate_means on_right 0) (dec 9 1)
     (map (fun b => (d10 *. int b) /. (d10 *. int 200)) [46; 64; 40; 50]%Z);
   wtvm (t_relative_weighted_tail_variate_means on_left 0) (dec 1 1)
     (map (fun b => (d12 *. int b) /. (d12 *. int 20)) [2; 2; 2; 14]%Z);
   wtvm (t_absolute_weighted_tail_variate_means on_right 0) (dec 9 1) (map (fun b => (d10 *. int b) /. d10) [46; 64; 40; 50]%Z);
   wtvm (t_absolute_weighted_tail_variate_means on_left 0) (dec 1 1) (map (fun b => (d12 *. int b) /. d12) [2; 2; 2; 14]%Z)]
  = repeat true 8.
Proof. vm_compute; reflexivity. Qed.

(** droppable.cpp 26-138. *)
Definition dB : Behaviour Library := WholeSets DoubleN (args 1 1) d_sqrt.
Definition push_ (z : Z) : event Library dB := Push Library dB (smp (int z)).
Definition drop_ (t : ltag) : event Library dB := Drop Library dB t.
Definition with_drops (fs : list ltag) (es : list (event Library dB)) (t : ltag) : value DoubleN (note DoubleN) :=
  Extracted DoubleN (args 1 1) d_sqrt in_order false (map dropped fs) es t.
Definition dropping (fs : list ltag) (es : list (event Library dB)) (m : double) (c s : Z) : bool :=
  near (e 5) [m] (with_drops fs es t_mean) && is_ [int c] (with_drops fs es t_count) && is_ [int s] (with_drops fs es t_sum).
Example test_droppable :
  [dropping [t_mean] [push_ 1] (int 1) 1 1; dropping [t_mean] [push_ 1; push_ 0] (dec 5 1) 2 1;
   dropping [t_mean] [push_ 1; push_ 0; drop_ t_mean; push_ 2] (dec 5 1) 2 1;
   near (e 5) [dec 5 1] (with_drops [t_immediate_mean] [push_ 1; push_ 0; drop_ t_mean; push_ 2] t_mean);
   is_ [int 2] (with_drops [t_immediate_mean] [push_ 1; push_ 0; drop_ t_mean; push_ 2] t_count)]
  = repeat true 5.
Proof. vm_compute; reflexivity. Qed.
Example test_droppable2 :
  [dropping [t_sum; t_mean] [push_ 1] (int 1) 1 1; dropping [t_sum; t_mean] [push_ 1; push_ 0] (dec 5 1) 2 1;
   dropping [t_sum; t_mean] [push_ 1; push_ 0; drop_ t_mean; drop_ t_sum; push_ 2] (dec 5 1) 2 1]
  = repeat true 3.
Proof. vm_compute; reflexivity. Qed.
Definition f3 : list ltag := [t_sum; t_count; t_mean].
Definition h3 : list (event Library dB) := [push_ 1; push_ 0; drop_ t_mean; drop_ t_sum; push_ 2].
Example test_droppable3 :
  [dropping f3 [push_ 1] (int 1) 1 1; dropping f3 [push_ 1; push_ 0] (dec 5 1) 2 1; dropping f3 h3 (int 1 /. int 3) 3 1;
   dropping f3 (h3 ++ [drop_ t_count; push_ 3]) (int 1 /. int 3) 3 1]
  = repeat true 4.
Proof. vm_compute; reflexivity. Qed.

(** external_accumulator.cpp 26-50 and external_weights.cpp 16-41: mean with an external sum, weighted_mean with
    external weights; the other set is passed to the extractor. *)
Definition other (W : bool) (t : ltag) (ps : list (pack DoubleN)) : ltag -> value DoubleN (note DoubleN) :=
  fun f => read Library dB (fold_left (push Library dB) ps (construct Library dB in_order W [plain t])) f.
Definition external (ext : ltag -> bool) (W : bool) (fs : list ltag) (o : ltag) (ps : list (pack DoubleN)) (t : ltag)
  : value DoubleN (note DoubleN) :=
  read_with Library dB ext (other W o ps)
    (fold_left (push Library (ExtB Library dB ext)) ps (construct Library (ExtB Library dB ext) in_order W (map plain fs))) (lfeature t).
Definition sum_is_external (t : ltag) : bool := match t with t_sum => true | _ => false end.
Example test_external_accumulator : map (fun q => let '(n, m, s) := q in
    near (e 5) [m] (external sum_is_external false [t_mean] t_sum (firstn n s3) t_mean)
    && is_ [int (Z.of_nat n)] (external sum_is_external false [t_mean] t_sum (firstn n s3) t_count)
    && is_ [s] (external sum_is_external false [t_mean] t_sum (firstn n s3) t_sum) && is_ [s] (other false t_sum (firstn n s3) t_sum))
    [(1%nat, int 1, int 1); (2%nat, dec 5 1, int 1); (3%nat, int 1, int 3)] = repeat true 3.
Proof. vm_compute; reflexivity. Qed.
Definition s16 : list (pack DoubleN) := map (fun z => wtd (int (fst z)) (int (snd z))) [(10, 2); (6, 3); (4, 4); (6, 5)]%Z.
Example test_external_weights :
  map (fun q => is_ [int (snd q)] (other true t_sum_of_weights (firstn (fst q) s16) t_sum_of_weights)) [(1%nat, 2); (2%nat, 5); (3%nat, 9); (4%nat, 14)]%Z
  ++ [near (e 5) [int 6] (external weight_accumulator true [t_weighted_mean] t_sum_of_weights s16 t_weighted_mean)]
  = repeat true 5.
Proof. vm_compute; reflexivity. Qed.

(** valarray.cpp 68-158, vector.cpp 74-161: containers of int. *)
Definition three (z : Z) : list Z := [z; z; z].
Definition means (o : outcome (list double)) (m : double) : bool :=
  match o with Ok l => Nat.eqb (length l) 3 && forallb (fun a => d_close a m (e 5)) l | _ => false end.
Example test_containers_sum : ia_sum_run Int (three 0) (map three [1; 2; 3]%Z) = Ok (three 6).
Proof. vm_compute; reflexivity. Qed.
Example test_containers_mean :
  map (fun q => means (ia_mean_run Int DoubleN (three 0) (map three (fst q))) (snd q)
                && means (ia_imean_run DoubleN (three 0) (map three (fst q))) (snd q))
    [([1], int 1); ([1; 0], dec 5 1); ([1; 0; 2], int 1)]%Z = repeat true 3.
Proof. vm_compute; reflexivity. Qed.
Example test_containers_weighted_mean :
  means (ia_weighted_mean_run Int DoubleN (three 0) (map (fun z => (three (fst z), snd z)) [(10, 2); (6, 3); (4, 4); (6, 5)]%Z)) (int 6) = true.
Proof. vm_compute; reflexivity. Qed.

(** The persistency tests: the set is saved after its samples, and read back into a set that has had other samples
    (rolling_mean.cpp 74-104) or none. *)
Definition sB (win : nat) : Behaviour Library := MemoSets DoubleN (args win 4) d_sqrt.
Definition saved_loaded (win : nat) (W : bool) (fs : list ltag) (ps others : list (pack DoubleN)) (t : ltag) : value DoubleN (note DoubleN) :=
  let fresh := construct Library (sB win) in_order W (map plain fs) in
  let full := fold_left (push Library (sB win)) ps fresh in
  let codec_of := library_serializer DoubleN (args win 4) d_one in
  match load_set Library (sB win) double codec_of (fold_left (push Library (sB win)) others fresh)
          (save_set Library (sB win) double codec_of full) with
  | Some s => read Library (sB win) s (lfeature t)
  | None => VNone
  end.
Definition reloads (win : nat) (W : bool) (f : ltag) (ps : list (pack DoubleN)) (eps m : double) : bool :=
  near eps [m] (saved_loaded win W [f] ps [] f) && near eps [m] (saved_loaded win W [f] ps (repeat (wcv (int 100) (int 3) (int 7)) 5) f).
Example test_persistency :
  [reloads 1 false t_count s3 (e 5) (int 3); reloads 1 false t_min (map smp [int 1; int 2]) (e 5) (int 1);
   reloads 1 false t_max s3 (e 5) (int 2); reloads 1 true t_sum s4 (e 5) (int 28); reloads 1 true t_sum_of_weights s4 (e 5) (int 12);
   reloads 1 true (t_sum_of_variates 0) s4 (e 5) (int 18);
   reloads 1 false t_mean s6 (e 5) (int 1); reloads 1 false t_immediate_mean s6 (e 5) (int 1);
   reloads 1 false (t_moment 5) (map (fun z => smp (int z)) [2; 3; 4; 5]%Z) (e 5) (int 1106);
   reloads 1 false t_lazy_variance s9 (e 5) (int 2); reloads 1 false t_variance s9 (e 5) (int 2);
   reloads 1 false t_skewness s11 (e 6) (dec 406040288214 12);
   reloads 1 false t_kurtosis s11 (e 6) (dec (-139965397924) 11);
   reloads 1 false (t_covariance 0) (cv [(1, 2); (1, 4); (2, 3); (6, 1)]%Z) (e 6) (dec (-175) 2);
   reloads 3 false t_rolling_count s9 (e 5) (int 3); reloads 3 false t_rolling_sum s9 (e 5) (int 12);
   reloads 5 false t_immediate_rolling_mean up7 (e 5) (int 5); reloads 5 false t_lazy_rolling_mean up7 (e 5) (int 5);
   reloads 3 false (t_rolling_moment 5) (map (fun z => smp (int z)) [2; 3; 4; 5]%Z) (e 5) (int 1464);
   reloads 4 false t_immediate_rolling_variance s14 (e 10) (dec 81625 4); reloads 4 false t_lazy_rolling_variance s14 (e 10) (dec 81625 4)]
  = repeat true 21.
Proof. vm_compute; reflexivity. Qed.

(** The estimators.  The tests of /repo/test pass them random numbers; here the samples are the first 100 terms of an
    evenly distributed sequence in (0, 1), unweighted or with the sample as its weight.  The quantiles of the first are p,
    those of the second the square root of p; the tolerances are percentages, as in the tests. *)
Definition even (n : nat) : double := d_div (int ((Z.of_nat (S n) * 618034) mod 1000003)) (int 1000003).
Definition s17 : list (pack DoubleN) := map (fun n => smp (even n)) (seq 0 100).
Definition s18 : list (pack DoubleN) := map (fun n => wtd (even n) (even n)) (seq 0 100).
Definition est_args (p : double) : Args DoubleN :=
  mkArgs DoubleN (d_opp d_max) d_max 1 20 10 p 10 [dec 1 1; dec 3 1; dec 5 1; dec 7 1; dec 9 1] 60 d_zero d_zero sorting_heap d_ceil (fun x _ => x).
Definition est (p : double) (W : bool) (fs : list ltag) (ps : list (pack DoubleN)) (t : ltag) : value DoubleN (note DoubleN) :=
  Extracted DoubleN (est_args p) d_sqrt in_order W (map plain fs)
    (map (Push Library (WholeSets DoubleN (est_args p) d_sqrt)) ps) t.
Definition p_squared (k : Z) : bool :=
  close d_zero (int 4) [dec k 2] (est (dec k 2) false [t_p_square_quantile] s17 t_p_square_quantile).
Definition weighted_p_squared (k : Z) : bool :=
  close d_zero (int 12) [d_sqrt (dec k 2)] (est (dec k 2) true [t_weighted_p_square_quantile] s18 t_weighted_p_square_quantile).
(** p_square_quantile.cpp, weighted_p_square_quantile.cpp *)
Example test_p_square : (map p_squared [25; 50; 75]%Z, map weighted_p_squared [25; 50; 75]%Z) = (repeat true 3, repeat true 3).
Proof. vm_compute; reflexivity. Qed.
(** extended_p_square.cpp, weighted_extended_p_square.cpp, extended_p_square_quantile.cpp *)
Example test_extended_p_square :
  [close d_zero (int 7) [dec 1 1; dec 3 1; dec 5 1; dec 7 1; dec 9 1] (est d_zero false [t_extended_p_square] s17 t_extended_p_square);
   close d_zero (int 12) (map (fun k => d_sqrt (dec k 1)) [1; 3; 5; 7; 9]%Z) (est d_zero true [t_weighted_extended_p_square] s18 t_weighted_extended_p_square);
   close (dec 4 1) (int 3) [dec 4 1] (est d_zero false [t_extended_p_square_quantile] s17 t_extended_p_square_quantile);
   close (dec 4 1) (int 3) [dec 4 1] (est d_zero false [t_extended_p_square_quantile_quadratic] s17 t_extended_p_square_quantile_quadratic);
   close (dec 4 1) (int 3) [d_sqrt (dec 4 1)] (est d_zero true [t_weighted_extended_p_square_quantile] s18 t_weighted_extended_p_square_quantile)]
  = repeat true 5.
Proof. vm_compute; reflexivity. Qed.
(** median.cpp, weighted_median.cpp; the medians of the P-square distribution are those of a neighbouring cell (C35),
    too far for only ten cells. *)
Example test_median :
  [close d_zero (int 3) [dec 5 1] (est d_zero false [t_median] s17 t_median);
   close d_zero (int 3) [dec 5 1] (est d_zero false [t_with_density_median] s17 t_with_density_median);
   close d_zero (int 3) [d_sqrt (dec 5 1)] (est d_zero true [t_weighted_median] s18 t_weighted_median);
   close d_zero (int 3) [d_sqrt (dec 5 1)] (est d_zero true [t_with_density_weighted_median] s18 t_with_density_weighted_median)]
  = repeat true 4.
Proof. vm_compute; reflexivity. Qed.
(** p_square_cumul_dist.cpp, weighted_p_square_cumul_dist.cpp: the distribution function at the markers is x, and x
    squared; but for the first two markers, whose values are small, and the last one, see C34_last_refuted. *)
Definition distributed (F : double -> double) (v : value DoubleN (note DoubleN)) : bool :=
  match v with VRest (NHist (Ok h)) => Nat.eqb (length h) 11 && forallb (fun xy => d_close (F (fst xy)) (snd xy) (int 8)) (removelast (tl (tl h))) | _ => false end.
Example test_distribution :
  [distributed (fun x => x) (est d_zero false [t_p_square_cumulative_distribution] s17 t_p_square_cumulative_distribution);
   distributed (fun x => d_mul x x) (est d_zero true [t_weighted_p_square_cumulative_distribution] s18 t_weighted_p_square_cumulative_distribution)]
  = repeat true 2.
Proof. vm_compute; reflexivity. Qed.
(** tail_quantile.cpp, tail_mean.cpp, weighted_tail_quantile.cpp, weighted_tail_mean.cpp: the mean of the part above p of
    the weighted samples is 2/3 (1 - p^(3/2)) / (1 - p). *)
Example test_tails :
  [close (dec 9 1) (int 3) [dec 9 1] (est d_zero false [t_tail_quantile on_right] s17 (t_tail_quantile on_right));
   close (dec 1 1) (int 8) [dec 1 1] (est d_zero false [t_tail_quantile on_left] s17 (t_tail_quantile on_left));
   close (dec 9 1) (int 3) [dec 95 2] (est d_zero false [t_non_coherent_tail_mean on_right] s17 (t_non_coherent_tail_mean on_right));
   close (dec 1 1) (int 10) [dec 5 2] (est d_zero false [t_non_coherent_tail_mean on_left] s17 (t_non_coherent_tail_mean on_left));
   close (dec 9 1) (int 3) [dec 95 2] (est d_zero false [t_tail_quantile on_right; t_coherent_tail_mean on_right] s17 (t_coherent_tail_mean on_right));
   close (dec 9 1) (int 3) [d_sqrt (dec 9 1)] (est d_zero true [t_weighted_tail_quantile on_right] s18 (t_weighted_tail_quantile on_right));
   close (dec 9 1) (int 3) [d_div (d_mul (dec 2 0) (d_sub d_one (d_mul (dec 9 1) (d_sqrt (dec 9 1))))) (dec 3 1)]
     (est d_zero true [t_non_coherent_weighted_tail_mean on_right] s18 (t_non_coherent_weighted_tail_mean on_right))]
  = repeat true 7.
Proof. vm_compute; reflexivity. Qed.
