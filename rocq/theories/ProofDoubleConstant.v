(** Samples that are all equal: IEEE doubles. *)
From Coq Require Import ZArith List Bool Reals Lra Lia Arith.
From Flocq Require Import Core IEEE754.BinarySingleNaN.
From Verif Require Import Num NumFacts ModelBasic ModelRounding ModelDouble ModelPSquare SpecStats SpecDouble SpecConstant ProofBasic ProofKahan
  ProofDouble ProofDouble2 ProofDouble3 ProofDoubleEx.
Import ListNotations.
Local Open Scope R_scope.

Lemma int_ok z : (Z.abs z <= 2 ^ 53)%Z -> b64_round (IZR z) = IZR z /\ Rabs (b64_round (IZR z)) < bpow radix2 1024.
Proof. intros H. rewrite (b64_exact_int z H). split; [reflexivity|now apply int_small]. Qed.

Lemma equal_imean c z xs : finite c -> val c = IZR z -> AllEqual c xs -> xs <> [] -> (Z.of_nat (length xs) * Z.abs z <= 2 ^ 53)%Z ->
  Countable xs -> finite (immediate_mean xs) /\ val (immediate_mean xs) = IZR z.
Proof.
  intros Fc Ec. induction xs as [|x xs IH] using rev_ind; intros H N B C; [congruence|]. clear N.
  assert (Ex : x = c) by (apply H, in_or_app; right; now left). subst x.
  unfold Countable in *. rewrite app_length in *. cbn [length] in *. rewrite Nat.add_1_r in *. rewrite imean_snoc.
  set (n := length xs) in *.
  destruct (ofnat_exact n) as [Fn En]; [lia|]. destruct (ofnat_exact (S n)) as [Fn' En']; [lia|].
  assert (Bz : (Z.abs z <= 2 ^ 53)%Z) by nia.
  assert (A : finite (d_mul (immediate_mean xs) (ofnat DoubleN n)) /\ val (d_mul (immediate_mean xs) (ofnat DoubleN n)) = IZR (z * Z.of_nat n)).
  { destruct xs as [|y ys].
    - subst n. split; [reflexivity|]. cbn [length]. rewrite Z.mul_0_r. reflexivity.
    - destruct IH as [Fm Em]; [intros w Hw; apply H, in_or_app; now left|discriminate|nia|lia|].
      assert (X : B2R (immediate_mean (y :: ys)) * B2R (ofnat DoubleN n) = IZR (z * Z.of_nat n)).
      { rewrite mult_IZR, En, INR_IZR_INZ. now rewrite <- Em. }
      destruct (int_ok (z * Z.of_nat n)) as [R1 R2]; [nia|].
      destruct (mul_ok _ _ Fm Fn) as [F1 E1]; [rewrite X; exact R2|]. rewrite X, R1 in E1. split; assumption. }
  destruct A as [Fa Ea]. set (a := d_mul (immediate_mean xs) (ofnat DoubleN n)) in *.
  assert (X : B2R a + B2R c = IZR (z * Z.of_nat (S n))).
  { rewrite Nat2Z.inj_succ, Z.mul_succ_r, plus_IZR. rewrite <- Ec. now rewrite <- Ea. }
  destruct (int_ok (z * Z.of_nat (S n))) as [R1 R2]; [nia|].
  destruct (add_ok a c Fa Fc) as [Fb Eb]; [rewrite X; exact R2|]. rewrite X, R1 in Eb. set (b := d_add a c) in *.
  assert (P : INR (S n) <> 0) by (apply not_0_INR; lia).
  assert (Y : B2R b / B2R (ofnat DoubleN (S n)) = IZR z).
  { rewrite Eb, En', mult_IZR, <- INR_IZR_INZ. field. exact P. }
  destruct (int_ok z Bz) as [R3 R4].
  destruct (div_ok b (ofnat DoubleN (S n))) as [Fd Ed]; [rewrite En'; exact P|exact Fb|rewrite Y; exact R4|].
  rewrite Y, R3 in Ed. split; assumption.
Qed.

Lemma equal_variance c z xs : finite c -> val c = IZR z -> AllEqual c xs -> xs <> [] -> (Z.of_nat (length xs) * Z.abs z <= 2 ^ 53)%Z ->
  Countable xs -> finite (immediate_variance xs) /\ val (immediate_variance xs) = 0.
Proof.
  intros Fc Ec. induction xs as [|x xs IH] using rev_ind; intros H N B C; [congruence|]. clear N.
  assert (Ex : x = c) by (apply H, in_or_app; right; now left). subst x.
  destruct xs as [|y ys]; [split; reflexivity|].
  destruct (equal_imean c z ((y :: ys) ++ [c]) Fc Ec H ltac:(now destruct ys) B C) as [Fm Em].
  rewrite variance_snoc by discriminate. set (xs := y :: ys) in *.
  unfold Countable in *. rewrite app_length in *. cbn [length] in B, C. rewrite Nat.add_1_r in *.
  destruct IH as [Fv Ev]; [intros w Hw; apply H, in_or_app; now left|discriminate|nia|lia|].
  assert (Pn : (1 <= length xs)%nat) by (unfold xs; cbn [length]; lia). set (n := length xs) in *.
  destruct (ofnat_exact n) as [Fn En]; [lia|]. destruct (ofnat_exact (S n)) as [Fn' En']; [lia|].
  assert (P : INR n <> 0) by (apply not_0_INR; lia). assert (P' : INR (S n) <> 0) by (apply not_0_INR; lia).
  destruct (int_ok 0) as [R1 R2]; [lia|]. set (m := immediate_mean (xs ++ [c])) in *.
  assert (X1 : B2R c - B2R m = 0). { unfold val in *. rewrite Ec, Em. ring. }
  destruct (sub_ok c m Fc Fm) as [F1 E1]; [rewrite X1; exact R2|]. rewrite X1, R1 in E1. set (t := d_sub c m) in *.
  assert (X2 : B2R t * B2R t = 0) by (rewrite E1; ring).
  destruct (mul_ok t t F1 F1) as [F2 E2]; [rewrite X2; exact R2|]. rewrite X2, R1 in E2.
  assert (X3 : B2R (d_mul t t) / B2R (ofnat DoubleN n) = 0). { rewrite E2. unfold Rdiv. ring. }
  destruct (div_ok (d_mul t t) (ofnat DoubleN n)) as [F3 E3]; [rewrite En; exact P|exact F2|rewrite X3; exact R2|]. rewrite X3, R1 in E3.
  assert (X4 : B2R (immediate_variance xs) * B2R (ofnat DoubleN n) = 0). { unfold val in Ev. rewrite Ev. ring. }
  destruct (mul_ok _ _ Fv Fn) as [F4 E4]; [rewrite X4; exact R2|]. rewrite X4, R1 in E4.
  set (u := d_mul (immediate_variance xs) (ofnat DoubleN n)) in *.
  assert (X5 : B2R u / B2R (ofnat DoubleN (S n)) = 0). { rewrite E4. unfold Rdiv. ring. }
  destruct (div_ok u (ofnat DoubleN (S n))) as [F5 E5]; [rewrite En'; exact P'|exact F4|rewrite X5; exact R2|]. rewrite X5, R1 in E5.
  assert (X6 : B2R (d_div u (ofnat DoubleN (S n))) + B2R (d_div (d_mul t t) (ofnat DoubleN n)) = 0) by (rewrite E5, E3; ring).
  destruct (add_ok _ _ F5 F3) as [F6 E6]; [rewrite X6; exact R2|]. rewrite X6, R1 in E6. split; assumption.
Qed.

Lemma equal_lazy_mean c z xs : finite c -> val c = IZR z -> AllEqual c xs -> xs <> [] -> (Z.of_nat (length xs) * Z.abs z <= 2 ^ 53)%Z ->
  Countable xs -> finite (lazy_mean xs) /\ val (lazy_mean xs) = IZR z.
Proof.
  intros Fc Ec H N B C. assert (Ln : (1 <= length xs)%nat) by (destruct xs; [congruence|cbn; lia]).
  assert (S : finite (sum_run DoubleN d_zero xs) /\ val (sum_run DoubleN d_zero xs) = ExactSum xs).
  { apply (sum_integers xs (map (fun _ => z) xs)).
    - clear N B C Ln. induction xs as [|x xs IH]; constructor; [rewrite (H x (or_introl eq_refl)); auto|].
      apply IH. intros y Hy. apply H. now right.
    - clear - B. replace (fold_right (fun z a => Z.abs z + a)%Z 0%Z (map (fun _ => z) xs)) with (Z.of_nat (length xs) * Z.abs z)%Z; [exact B|].
      clear B. induction xs as [|x xs IH]; [reflexivity|]. cbn [length map fold_right]. rewrite <- IH, Nat2Z.inj_succ. lia. }
  destruct S as [Fs Es].
  assert (X : ExactSum xs = IZR z * INR (length xs)).
  { clear - H Ec. induction xs as [|x xs IH]; [unfold ExactSum; cbn; ring|]. change (ExactSum (x :: xs)) with (val x + ExactSum xs).
    rewrite IH by (intros y Hy; apply H; now right). rewrite (H x (or_introl eq_refl)), Ec. cbn [length]. rewrite S_INR. ring. }
  unfold lazy_mean. rewrite mean_set_is. change (mean_set_mean DoubleN {| ms_count := length xs; ms_sum := sum_run DoubleN d_zero xs |})
    with (d_div (sum_run DoubleN d_zero xs) (ofnat DoubleN (length xs))).
  unfold Countable in C. destruct (ofnat_exact (length xs)) as [Fn En]; [lia|].
  assert (P : INR (length xs) <> 0) by (apply not_0_INR; lia).
  assert (Y : B2R (sum_run DoubleN d_zero xs) / B2R (ofnat DoubleN (length xs)) = IZR z).
  { unfold val in Es. rewrite Es, En, X. field. exact P. }
  destruct (int_ok z) as [R1 R2]; [nia|].
  destruct (div_ok (sum_run DoubleN d_zero xs) (ofnat DoubleN (length xs))) as [F E]; [rewrite En; exact P|exact Fs|rewrite Y; exact R2|].
  rewrite Y, R1 in E. split; assumption.
Qed.
Lemma equal_integers c z xs : finite c -> val c = IZR z -> AllEqual c xs -> xs <> [] -> (Z.of_nat (length xs) * Z.abs z <= 2 ^ 53)%Z ->
  Countable xs ->
  (finite (lazy_mean xs) /\ val (lazy_mean xs) = val c) /\ (finite (immediate_mean xs) /\ val (immediate_mean xs) = val c)
  /\ (finite (immediate_variance xs) /\ val (immediate_variance xs) = 0).
Proof.
  intros Fc Ec H N B C. rewrite Ec. split; [now apply (equal_lazy_mean c)|]. split; [now apply (equal_imean c)|now apply (equal_variance c z)].
Qed.

From Verif Require Import ProofDouble4 ProofDoublePSquare2.
Lemma equal_extremes c xs : finite c -> AllEqual c xs -> xs <> [] -> minimum xs = c /\ maximum xs = c.
Proof.
  intros F H N. assert (I : In c xs). { destruct xs as [|x xs]; [congruence|]. rewrite <- (H x (or_introl eq_refl)). now left. }
  assert (Nn : ~ nan c) by (unfold finite in F; unfold nan; destruct c; cbn in *; congruence).
  split; apply H.
  - apply (minimum_sample xs c I Nn). intros ->. discriminate F.
  - apply (maximum_sample xs c I Nn). intros ->. discriminate F.
Qed.
Lemma equal_quantiles c xs : AllEqual c xs -> Countable xs -> Within (2 ^ 1000) xs ->
  ((5 <= length xs)%nat -> forall p, finite p -> 0 <= val p <= 1 ->
     exists s r, pq_run DoubleN p xs = Ok s /\ pq_result DoubleN s = Ok r /\ finite r /\ val r = val c)
  /\ (forall probs, (2 * length probs + 3 <= length xs)%nat -> Forall (fun p => finite p /\ 0 <= val p <= 1) probs ->
     exists s rs, ext_run DoubleN probs xs = Ok s /\ ext_result DoubleN probs s = Ok rs /\ length rs = length probs /\
       Forall (fun r => finite r /\ val r = val c) rs).
Proof.
  intros H C W. split.
  - intros L p Fp Bp. destruct (pq_double p xs C L W Fp Bp) as (s & r & lo & hi & E & R & Fr & (Ilo & Ihi & _) & B & _).
    rewrite (H lo Ilo), (H hi Ihi) in B. exists s, r. repeat split; auto. lra.
  - intros probs L Fp. destruct (ext_double probs xs C L W Fp) as (s & rs & lo & hi & E & R & Lr & (Ilo & Ihi & _) & _ & B & _).
    rewrite (H lo Ilo), (H hi Ihi) in B. exists s, rs. repeat split; auto. eapply Forall_impl; [|exact B]. intros r [F G]. split; auto. lra.
Qed.

(** ** Witnesses *)
Lemma tenths_drift : let xs := [tenth; tenth; tenth] in
  d_lt tenth (lazy_mean xs) = true /\ d_lt tenth (immediate_mean xs) = true
  /\ d_lt d_zero (immediate_variance xs) = true
  /\ exists v g k, lazy_variance_run DoubleN d_zero xs = Some v /\ d_lt v d_zero = true
     /\ skewness_run DoubleN d_sqrt d_zero xs = Some g /\ nan g
     /\ kurtosis_run DoubleN d_zero xs = Some k /\ d_lt (dbl 1 53) k = true.
Proof.
  cbv zeta. split; [vm_compute; reflexivity|]. split; [vm_compute; reflexivity|]. split; [vm_compute; reflexivity|].
  assert (G : forall o, match o with Some v => d_lt v d_zero | None => false end = true -> exists v : double, o = Some v /\ d_lt v d_zero = true)
    by (intros [v|] E; [eauto|discriminate]).
  assert (G2 : forall o, match o with Some v => is_nan v | None => false end = true -> exists v : double, o = Some v /\ nan v)
    by (intros [v|] E; [eauto|discriminate]).
  assert (G3 : forall o, match o with Some v => d_lt (dbl 1 53) v | None => false end = true -> exists v : double, o = Some v /\ d_lt (dbl 1 53) v = true)
    by (intros [v|] E; [eauto|discriminate]).
  destruct (G (lazy_variance_run DoubleN d_zero [tenth; tenth; tenth])) as (v & E1 & L1); [vm_compute; reflexivity|].
  destruct (G2 (skewness_run DoubleN d_sqrt d_zero [tenth; tenth; tenth])) as (g & E2 & L2); [vm_compute; reflexivity|].
  destruct (G3 (kurtosis_run DoubleN d_zero [tenth; tenth; tenth])) as (k & E3 & L3); [vm_compute; reflexivity|].
  exists v, g, k. repeat split; assumption.
Qed.
Lemma infinite_some (o : option double) b : match o with Some (B754_infinity b') => Bool.eqb b b' | _ => false end = true -> o = Some (B754_infinity b).
Proof. destruct o as [[|b'| |]|]; try discriminate. intros E. apply Bool.eqb_prop in E. now subst. Qed.
Lemma two_tenths : let xs := [tenth; tenth] in
  skewness_run DoubleN d_sqrt d_zero xs = Some (d_opp d_inf) /\ kurtosis_run DoubleN d_zero xs = Some d_inf.
Proof.
  cbv zeta. split.
  - apply (infinite_some _ true). vm_compute. reflexivity.
  - apply (infinite_some _ false). vm_compute. reflexivity.
Qed.
Lemma three_sevens : let xs := [seven_tenths; seven_tenths; seven_tenths] in
  exists g k, skewness_run DoubleN d_sqrt d_zero xs = Some g /\ d_lt g (dbl (-1) 26) = true
   /\ kurtosis_run DoubleN d_zero xs = Some k /\ d_lt k (dbl (-2) 0) = true.
Proof.
  cbv zeta. assert (G : forall o b, match o with Some v => d_lt v b | None => false end = true -> exists v : double, o = Some v /\ d_lt v b = true)
    by (intros [v|] b E; [eauto|discriminate]).
  destruct (G (skewness_run DoubleN d_sqrt d_zero [seven_tenths; seven_tenths; seven_tenths]) (dbl (-1) 26)) as (g & E1 & L1); [vm_compute; reflexivity|].
  destruct (G (kurtosis_run DoubleN d_zero [seven_tenths; seven_tenths; seven_tenths]) (dbl (-2) 0)) as (k & E2 & L2); [vm_compute; reflexivity|].
  exists g, k. repeat split; assumption.
Qed.
Lemma equal_ex : finite (dbl 7 0) /\ val (dbl 7 0) = IZR 7 /\ AllEqual (dbl 7 0) (repeat (dbl 7 0) 6) /\ Countable (repeat (dbl 7 0) 6).
Proof.
  destruct (shown_value (dbl 7 0) 7881299347898368 (-50)) as [F V]; [vm_compute; reflexivity|]. split; [exact F|]. split.
  - rewrite V. rewrite <- (mult_IZR 7 (2 ^ 50)) || idtac.
    replace 7881299347898368%Z with (7 * 2 ^ 50)%Z by reflexivity. rewrite mult_IZR. change (2 ^ 50)%Z with (Zpower radix2 50).
    rewrite IZR_Zpower by lia. rewrite Rmult_assoc, <- bpow_plus. cbn. ring.
  - split; [intros x Hx; exact (repeat_spec _ _ _ Hx)|]. unfold Countable. rewrite repeat_length. lia.
Qed.
