(** Doubles: concrete cases. *)
From Coq Require Import ZArith List Bool Reals Lra Lia Arith Permutation.
From Flocq Require Import Core IEEE754.BinarySingleNaN.
From Verif Require Import Num NumFacts ModelBasic ModelMinMax ModelRolling ModelDouble SpecStats SpecRolling SpecDouble
  ProofDouble ProofDouble2 ProofDouble3 ProofDouble4 ProofDouble5 ProofDouble6.
Import ListNotations.
Local Open Scope R_scope.

(** The value of a double built from an integer and a power of two that need no rounding. *)
Lemma shown_value x m e : shown_double x = Some (m, e) -> finite x /\ val x = IZR m * bpow radix2 e.
Proof.
  destruct x as [s|s| |s mx ex H]; intros E; try discriminate E.
  - injection E as <- <-. split; [reflexivity |]. cbn. ring.
  - injection E as <- <-. split; [reflexivity |]. unfold val. destruct s; reflexivity.
Qed.
Lemma shown_bound x m e j : shown_double x = Some (m, e) -> (0 <= j + e)%Z -> (Z.abs m < 2 ^ j)%Z -> (0 <= j)%Z -> finite x /\ Rabs (val x) <= bpow radix2 (j + e).
Proof.
  intros E _ B J. destruct (shown_value x m e E) as [F ->]. split; [exact F |].
  rewrite Rabs_mult, (Rabs_pos_eq (bpow _ _)), bpow_plus by apply bpow_ge_0. apply Rmult_le_compat_r; [apply bpow_ge_0 |].
  rewrite <- abs_IZR, <- IZR_Zpower by exact J. apply IZR_le. change (Zpower radix2 j) with (2 ^ j)%Z. lia.
Qed.

(** Comparing doubles without normalising the proofs they carry. *)
Lemma shown_same (x y : double) m e : shown_double x = Some (m, e) -> shown_double y = Some (m, e) -> m <> 0%Z -> x = y.
Proof.
  destruct x as [s|s| |s a b H], y as [s'|s'| |s' a' b' H']; intros E E' N; try discriminate E; try discriminate E'.
  - injection E as <- <-. congruence.
  - injection E as <- <-. congruence.
  - injection E' as <- <-. congruence.
  - injection E as Ea <-. injection E' as Ea' ->. assert (S : s = s' /\ a = a') by (destruct s, s'; rewrite <- Ea in Ea'; split; congruence).
    destruct S as [<- <-]. f_equal. apply Eqdep_dec.UIP_dec, Bool.bool_dec.
Qed.
Lemma infinite_is (x : double) : is_nan x = false -> is_finite x = false -> x = B754_infinity (Bsign x).
Proof. destruct x; try discriminate. reflexivity. Qed.
Lemma observe {A} (f : roll DoubleN -> A) N xs s a : rolling N 1 xs s -> match roll_run DoubleN N 1 d_zero xs with Some s => Some (f s) | None => None end = Some a -> f s = a.
Proof. unfold rolling. intros ->. intros E. injection E as E. exact E. Qed.
Lemma state N xs : exists s, rolling N 1 xs s.
Proof. apply roll_run_total. lia. Qed.

Definition big1 := dbl 134217729 0. (* 2^27 + 1 *)
Definition big2 := dbl 134217730 0.
Definition tenth := dbl 7205759403792794 (-56). (* the double 0.1 *)

Lemma tens : Countable [big1; big2; tenth] /\ Within (2 ^ 450) [big1; big2; tenth].
Proof.
  split; [unfold Countable; cbn; lia |].
  assert (P : forall x, finite x /\ Rabs (val x) <= bpow radix2 28 -> finite x /\ Rabs (val x) <= 2 ^ 450).
  { intros x [F B]. split; [exact F |]. eapply Rle_trans; [exact B |]. rewrite <- (IZR_Zpower radix2 28) by lia. rewrite pow_IZR. apply IZR_le. apply Z.pow_le_mono_r; lia. }
  apply Forall_cons; [apply P | apply Forall_cons; [apply P | apply Forall_cons; [apply P | apply Forall_nil]]].
  - apply (shown_bound big1 4503599660924928 (-25) 53); vm_compute; reflexivity || discriminate.
  - apply (shown_bound big2 4503599694479360 (-25) 53); vm_compute; reflexivity || discriminate.
  - apply (shown_bound tenth 7205759403792794 (-56) 84); vm_compute; reflexivity || discriminate.
Qed.

Lemma pow_bpow n : 2 ^ n = bpow radix2 (Z.of_nat n).
Proof. rewrite <- IZR_Zpower by lia. rewrite pow_IZR. reflexivity. Qed.

(** The statements for the property file. *)
Lemma within_pow n xs : Within (2 ^ n) xs -> Within (bpow radix2 (Z.of_nat n)) xs.
Proof. rewrite pow_bpow. exact (fun H => H). Qed.
Lemma default_finite xs : Countable xs -> Within (2 ^ 450) xs -> finite (immediate_variance xs) /\ 0 <= val (immediate_variance xs).
Proof. intros C W. apply within_pow in W. destruct (variance_within 450 xs C ltac:(lia) ltac:(lia) W) as (F & V & _). split; assumption. Qed.
Lemma error_ok xs : Countable xs -> (2 <= length xs)%nat -> Within (2 ^ 450) xs ->
  finite (error_of_immediate_mean xs) /\ d_lt (error_of_immediate_mean xs) d_zero = false.
Proof. intros C L W. apply within_pow in W. apply error_finite; assumption. Qed.
Lemma mean_bounded n xs : Countable xs -> (n <= 970)%nat -> Within (2 ^ n) xs ->
  finite (immediate_mean xs) /\ Rabs (val (immediate_mean xs)) <= 2 ^ n.
Proof. intros C N W. apply within_pow in W. rewrite pow_bpow. apply mean_within; [exact C | lia | lia | exact W]. Qed.
Lemma rolling_ok N M xs : (1 <= M)%nat -> (Z.of_nat (length xs) < 2 ^ 52)%Z -> Within (2 ^ 400) xs ->
  exists s, rolling N M xs s /\ finite (r_variance N s) /\ 0 <= val (r_variance N s).
Proof.
  intros HM C W. apply within_pow in W. destruct (roll_run_total DoubleN N M d_zero xs HM) as [s E]. exists s. split; [exact E |].
  apply (r_variance_ok N M xs HM C W s E).
Qed.

(** The lazy variance of two samples. *)
Lemma lazy_negative : exists v, lazy_variance_run DoubleN d_zero [big1; big2] = Some v /\ d_lt v d_zero = true.
Proof. eexists. split; [reflexivity | vm_compute; reflexivity]. Qed.
Lemma lazy_error_nan : exists v, error_of_mean_run DoubleN d_sqrt [big1; big2] = Some v /\ nan v.
Proof. eexists. split; [reflexivity | vm_compute; reflexivity]. Qed.

(** A weight much larger than all before it. *)
Lemma weighted_nan : Forall (fun p => Bsign (snd p) = false /\ finite (fst p) /\ finite (snd p)) [(d_one, dbl 1 (-60)); (dbl 2 0, d_one)] /\
  nan (weighted_variance [(d_one, dbl 1 (-60)); (dbl 2 0, d_one)]) /\
  nan (weighted_variance [(d_one, dbl 1 (-60)); (dbl 2 0, d_one); (d_one, d_one); (dbl 3 0, d_one)]).
Proof. split; [repeat constructor | split; vm_compute; reflexivity]. Qed.
Lemma weighted_ex : Forall (fun p => Bsign (snd p) = false) [(d_one, d_one); (dbl 3 0, d_one)] /\
  shown_double (weighted_variance [(d_one, d_one); (dbl 3 0, d_one)]) = Some (4503599627370496, -52)%Z.
Proof. split; [repeat constructor | vm_compute; reflexivity]. Qed.

(** The mean of three equal samples is larger than each of them, in both forms. *)
Lemma mean_outside : d_lt (maximum [tenth; tenth; tenth]) (lazy_mean [tenth; tenth; tenth]) = true /\
  d_lt (maximum [tenth; tenth; tenth]) (immediate_mean [tenth; tenth; tenth]) = true.
Proof. split; vm_compute; reflexivity. Qed.
(** The two forms of the mean differ. *)
Definition seven_tenths := dbl 6305039478318694 (-53). (* the double 0.7 *)
Lemma means_differ : d_lt (immediate_mean [tenth; d_one; seven_tenths; tenth]) (lazy_mean [tenth; d_one; seven_tenths; tenth]) = true.
Proof. vm_compute. reflexivity. Qed.
(** The order of the samples matters. *)
Lemma order_matters : Permutation [dbl 1 53; d_one; d_one] [d_one; d_one; dbl 1 53] /\
  d_lt (sum_run DoubleN d_zero [dbl 1 53; d_one; d_one]) (sum_run DoubleN d_zero [d_one; d_one; dbl 1 53]) = true.
Proof. split; [| vm_compute; reflexivity]. apply (perm_trans (perm_swap d_one (dbl 1 53) [d_one])), perm_skip, perm_swap. Qed.
(** The mean of two equal samples is infinite. *)
Lemma mean_overflow : finite d_max /\ lazy_mean [d_max; d_max] = d_inf /\ immediate_mean [d_max; d_max] = d_inf.
Proof.
  split; [reflexivity |]. split; (etransitivity; [apply infinite_is; vm_compute; reflexivity |]).
  - replace (Bsign (lazy_mean [d_max; d_max])) with false by (vm_compute; reflexivity). reflexivity.
  - replace (Bsign (immediate_mean [d_max; d_max])) with false by (vm_compute; reflexivity). reflexivity.
Qed.

Definition two_pow_52 := dbl 1 52.
Lemma integers_ex : Forall2 (fun x z => finite x /\ val x = IZR z) [two_pow_52; dbl (-3) 0; dbl 7 0] [4503599627370496; -3; 7]%Z /\
  (fold_right (fun z a => Z.abs z + a) 0 [4503599627370496; -3; 7] <= 2 ^ 53)%Z.
Proof.
  split; [| cbn; lia].
  assert (P : forall x m e z, shown_double x = Some (m, (- e)%Z) -> (0 <= e)%Z -> m = (z * 2 ^ e)%Z -> finite x /\ val x = IZR z).
  { intros x m e z E He ->. destruct (shown_value _ _ _ E) as [F ->]. split; [exact F |].
    change (2 ^ e)%Z with (Zpower radix2 e). rewrite mult_IZR, IZR_Zpower by exact He. rewrite Rmult_assoc, <- bpow_plus.
    replace (e + - e)%Z with 0%Z by lia. cbn. ring. }
  apply Forall2_cons; [apply (P _ 4503599627370496 0)%Z | apply Forall2_cons; [apply (P _ (-6755399441055744) 51)%Z | apply Forall2_cons; [apply (P _ 7881299347898368 50)%Z | apply Forall2_nil]]];
    vm_compute; reflexivity || discriminate.
Qed.

(** The example of every error bound: the sum and both means are finite. *)
Lemma finite_ex : Countable [big1; big2; tenth] /\ finite (sum_run DoubleN d_zero [big1; big2; tenth]) /\
  finite (lazy_mean [big1; big2; tenth]) /\ finite (immediate_mean [big1; big2; tenth]).
Proof. split; [unfold Countable; cbn; lia |]. repeat split; vm_compute; reflexivity. Qed.

(** Minimum and maximum skip what is not a number. *)
Lemma extremes_ex : minimum [d_nan; big2; d_nan; big1] = big1 /\ maximum [d_nan; big1; big2; d_nan] = big2.
Proof.
  split; [apply (shown_same _ _ 4503599660924928 (-25)) | apply (shown_same _ _ 4503599694479360 (-25))]; vm_compute; reflexivity || discriminate.
Qed.
(** Infinite samples only: neither a sample nor a bound. *)
Lemma extremes_infinite : minimum [d_inf] = d_max /\ maximum [d_opp d_inf] = d_opp d_max.
Proof.
  split; [apply (shown_same _ _ 9007199254740991 971) | apply (shown_same _ _ (-9007199254740991) 971)]; vm_compute; reflexivity || discriminate.
Qed.
Lemma nan_ex : nan (sum_run DoubleN d_zero [big1; d_nan; big2]) /\ nan (immediate_variance [big1; d_nan; big2]).
Proof. split; vm_compute; reflexivity. Qed.
(** One sample that is not a number has variance 0. *)
Lemma nan_single : nan d_nan /\ ~ nan (immediate_variance [d_nan]).
Proof. split; [reflexivity | vm_compute; discriminate]. Qed.

(** Rolling: what a large sample leaves behind, after it has left the window. *)
Definition passed := [d_one; dbl 1 60; dbl 3 0; dbl 5 0].
Lemma drift : exists s, rolling 2 1 passed s /\ ro_window DoubleN 2 s = [dbl 3 0; dbl 5 0] /\
  r_sum s = dbl 5 0 /\ val (r_mean s) = 0.
Proof.
  destruct (state 2 passed) as [s E]. exists s. split; [exact E |]. split; [| split].
  - unfold ro_window. rewrite (roll_run_buf DoubleN 2 1 d_zero passed (le_n 1) s E). reflexivity.
  - apply (shown_same _ _ 5629499534213120 (-50)); [| vm_compute; reflexivity | discriminate].
    apply (observe (fun s => shown_double (r_sum s)) 2 passed s _ E). vm_compute. reflexivity.
  - assert (S : shown_double (r_mean s) = Some (0, 0)%Z) by (apply (observe (fun s => shown_double (r_mean s)) 2 passed s _ E); vm_compute; reflexivity).
    destruct (shown_value _ _ _ S) as [_ ->]. ring.
Qed.
Lemma passed_finite : exists s, rolling 2 1 passed s /\ finite (r_sum s) /\ Within (2 ^ 60) passed.
Proof.
  destruct (state 2 passed) as [s E]. exists s. split; [exact E |]. split; [apply (observe (fun s => is_finite (r_sum s)) 2 passed s _ E); vm_compute; reflexivity |].
  clear s E. assert (P : forall x m e j, shown_double x = Some (m, e) -> (0 <= j)%Z -> (j + e <= 60)%Z -> (Z.abs m <= 2 ^ j)%Z -> finite x /\ Rabs (val x) <= 2 ^ 60).
  { intros x m e j E J L B. destruct (shown_value _ _ _ E) as [F ->]. split; [exact F |]. rewrite pow_bpow.
    rewrite Rabs_mult, (Rabs_pos_eq (bpow _ _)) by apply bpow_ge_0. apply Rle_trans with (bpow radix2 j * bpow radix2 e).
    - apply Rmult_le_compat_r; [apply bpow_ge_0 |]. rewrite <- abs_IZR, <- IZR_Zpower by exact J. apply IZR_le. exact B.
    - rewrite <- bpow_plus. apply bpow_le. exact L. }
  apply Forall_cons; [apply (P _ 4503599627370496 (-52) 52)%Z | apply Forall_cons; [apply (P _ 4503599627370496 8 52)%Z |
    apply Forall_cons; [apply (P _ 6755399441055744 (-51) 53)%Z | apply Forall_cons; [apply (P _ 5629499534213120 (-50) 53)%Z | apply Forall_nil]]]];
    vm_compute; reflexivity || discriminate.
Qed.
Lemma infinity_stays : exists s, rolling 2 1 [d_inf; d_one; d_one; d_one] s /\ ro_window DoubleN 2 s = [d_one; d_one] /\ nan (r_sum s) /\ nan (r_mean s).
Proof.
  set (xs := [d_inf; d_one; d_one; d_one]). destruct (state 2 xs) as [s E]. exists s. split; [exact E |]. split; [| split].
  - unfold ro_window. rewrite (roll_run_buf DoubleN 2 1 d_zero xs (le_n 1) s E). reflexivity.
  - apply (observe (fun s => is_nan (r_sum s)) 2 xs s _ E). vm_compute. reflexivity.
  - apply (observe (fun s => is_nan (r_mean s)) 2 xs s _ E). vm_compute. reflexivity.
Qed.
(** Before the window is full nothing is clamped: the variance can be minus infinity. *)
Lemma negative_variance : exists s, rolling 2 1 [d_opp d_max; d_max] s /\ Forall finite [d_opp d_max; d_max] /\ d_lt (r_variance 2 s) d_zero = true.
Proof.
  set (xs := [d_opp d_max; d_max]). destruct (state 2 xs) as [s E]. exists s. split; [exact E |]. split; [repeat constructor |].
  apply (observe (fun s => d_lt (r_variance 2 s) d_zero) 2 xs s _ E). vm_compute. reflexivity.
Qed.
Lemma lazy_rolling_negative : exists s, rolling 2 1 [big1; big2] s /\ d_lt (ro_lazy_variance DoubleN 2 s) d_zero = true.
Proof.
  destruct (state 2 [big1; big2]) as [s E]. exists s. split; [exact E |].
  apply (observe (fun s => d_lt (ro_lazy_variance DoubleN 2 s) d_zero) 2 _ s _ E). vm_compute. reflexivity.
Qed.
Lemma rolling_integers_ex : Integers 7 [dbl 7 0; dbl (-3) 0; dbl 7 0; d_one] /\ (Z.of_nat 2 * 7 <= 2 ^ 53)%Z.
Proof.
  split; [| cbn; lia].
  assert (P : forall x m e z, shown_double x = Some (m, (- e)%Z) -> (0 <= e)%Z -> m = (z * 2 ^ e)%Z -> (Z.abs z <= 7)%Z -> finite x /\ exists z, val x = IZR z /\ (Z.abs z <= 7)%Z).
  { intros x m e z E He -> B. destruct (shown_value _ _ _ E) as [F V]. split; [exact F |]. exists z. split; [| exact B]. rewrite V.
    change (2 ^ e)%Z with (Zpower radix2 e). rewrite mult_IZR, IZR_Zpower by exact He. rewrite Rmult_assoc, <- bpow_plus.
    replace (e + - e)%Z with 0%Z by lia. cbn. ring. }
  apply Forall_cons; [apply (P _ 7881299347898368 50 7)%Z | apply Forall_cons; [apply (P _ (-6755399441055744) 51 (-3))%Z | apply Forall_cons;
    [apply (P _ 7881299347898368 50 7)%Z | apply Forall_cons; [apply (P _ 4503599627370496 52 1)%Z | apply Forall_nil]]]];
    vm_compute; reflexivity || discriminate.
Qed.

(** Wrappers. *)
Lemma variance_not_negative xs : d_lt (immediate_variance xs) d_zero = false.
Proof. apply unsigned_not_negative, variance_unsigned. Qed.
Lemma weighted_not_negative h : Forall (fun p : double * double => Bsign (snd p) = false) h -> d_lt (weighted_variance h) d_zero = false.
Proof. intros H. apply unsigned_not_negative, weighted_variance_unsigned. eapply Forall_impl; [| exact H]. intros p E. right. exact E. Qed.
Lemma minimum_bound xs : ~ nan (minimum xs) /\ forall x, In x xs -> d_lt x (minimum xs) = false.
Proof. split; [unfold nan; rewrite minimum_number; discriminate | apply minimum_least]. Qed.
Lemma maximum_bound xs : ~ nan (maximum xs) /\ forall x, In x xs -> d_lt (maximum xs) x = false.
Proof. split; [unfold nan; rewrite maximum_number; discriminate | apply maximum_greatest]. Qed.
Lemma minimum_sample xs x : In x xs -> ~ nan x -> x <> d_inf -> In (minimum xs) xs.
Proof. intros I N F. apply (minimum_in xs x I); [apply Bool.not_true_is_false; exact N | exact F]. Qed.
Lemma maximum_sample xs x : In x xs -> ~ nan x -> x <> d_opp d_inf -> In (maximum xs) xs.
Proof. intros I N F. apply (maximum_in xs x I); [apply Bool.not_true_is_false; exact N | exact F]. Qed.
Lemma extremes_filter xs : let numbers := filter (fun x => negb (is_nan x)) xs in minimum numbers = minimum xs /\ maximum numbers = maximum xs.
Proof. split; [apply minimum_filter | apply maximum_filter]. Qed.
Lemma poisoned xs x : In x xs -> nan x ->
  nan (sum_run DoubleN d_zero xs) /\ nan (lazy_mean xs) /\ nan (immediate_mean xs) /\ ((2 <= length xs)%nat -> nan (immediate_variance xs)).
Proof.
  intros I N. split; [apply (sum_nan xs x I N) |]. split; [apply (lazy_mean_nan xs x I N) |]. split; [apply (immediate_mean_nan xs x I N) | apply (variance_nan xs x I N)].
Qed.
Lemma sum_bound xs : finite (sum_run DoubleN d_zero xs) -> Forall finite xs /\
  Rabs (val (sum_run DoubleN d_zero xs) - ExactSum xs) <= ((1 + roundoff) ^ (length xs - 1) - 1) * Magnitude xs.
Proof. intros F. split; [apply sum_finite_all; exact F | apply sum_error; exact F]. Qed.
