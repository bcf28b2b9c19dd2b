(** The weighted P-square estimators with double samples and weights: whatever the weights, the heights of the
    markers stay ordered, finite and within the samples. *)
From Coq Require Import ZArith List Bool Reals Lra Lia Arith Permutation Sorting.Sorted.
From Flocq Require Import Core Plus_error IEEE754.BinarySingleNaN.
From Verif Require Import Num NumFacts ModelBasic ModelRolling ModelDensity ModelPSquare ModelRounding ModelDouble SpecStats SpecDouble
  ProofBasic ProofRollingBuf ProofPSquare ProofKahan ProofDouble ProofDouble2 ProofDouble3 ProofDouble4 ProofDouble5 ProofDouble6 ProofDoublePSquare.
Import ListNotations.
Local Open Scope R_scope.
Local Notation at_ l i := (nth i (l : list (car DoubleN)) (zero DoubleN)).

(** *** The linear step, for a distance above 1 *)
Lemma above_one c : b64_format c -> 1 < c -> 1 + bpow radix2 (-52) <= c.
Proof.
  intros F L. assert (F1 : b64_format 1) by (change 1 with (bpow radix2 0); apply bpow_format; lia).
  assert (S := succ_le_lt radix2 (FLT_exp (-1074) 53) 1 c F1 F L). rewrite succ_eq_pos in S by lra.
  change 1 with (bpow radix2 0) in S at 2. rewrite ulp_bpow in S. exact S.
Qed.
Lemma shrink_any (a b : double) (c : R) : val b <= val a -> b64_format c -> 1 < c ->
  0 <= b64_round (b64_round (val a - val b) / c) <= val a - val b.
Proof.
  intros L Fc C. assert (F0 : b64_format 0) by apply generic_format_0.
  set (g := val a - val b). assert (G : 0 <= g) by (unfold g; lra).
  assert (D0 : 0 <= b64_round g) by (rewrite <- (round_format 0 F0); apply round_le; lra).
  assert (IC : 0 < / c) by (apply Rinv_0_lt_compat; lra).
  split; [rewrite <- (round_format 0 F0); apply round_le; apply Rmult_le_pos; lra |].
  destruct (Rle_or_lt (Rabs (val a + - val b)) (bpow radix2 (53 + -1074))) as [S | S].
  - assert (Fg : b64_format g) by (apply (FLT_format_plus_small radix2 (-1074) 53 (val a) (- val b)); [apply val_format | apply generic_format_opp, val_format | exact S]).
    rewrite (round_format g Fg). rewrite <- (round_format g Fg) at 2. apply round_le. unfold Rdiv. assert (/ c <= 1) by (rewrite <- Rinv_1; apply Rinv_le; lra). nra.
  - change (val a + - val b) with g in S. rewrite Rabs_pos_eq in S by exact G.
    assert (V : Valid_exp (FLT_exp (-1074) 53)) by (apply FLT_exp_valid; reflexivity).
    set (d := round radix2 (FLT_exp (-1074) 53) Zfloor g).
    assert (Fd : b64_format d) by (apply generic_format_round; [exact V | apply valid_rnd_DN]).
    assert (Ld : d <= g) by (apply round_DN_pt; exact V).
    assert (Bd : bpow radix2 (53 + -1074) <= d). { apply round_DN_pt; [exact V | apply generic_format_bpow; unfold FLT_exp; lia | lra]. }
    assert (Pd : 0 < d) by (eapply Rlt_le_trans; [apply bpow_gt_0 | exact Bd]).
    assert (U : ulp radix2 (FLT_exp (-1074) 53) g <= d * bpow radix2 (-52)).
    { rewrite <- (ulp_DN radix2 (FLT_exp (-1074) 53) g G). fold d. rewrite <- (Rabs_pos_eq d) at 2 by lra. apply (ulp_FLT_le radix2 (-1074) 53).
      rewrite Rabs_pos_eq by lra. eapply Rle_trans; [| exact Bd]. apply bpow_le. lia. }
    assert (N : b64_round g <= d * (1 + bpow radix2 (-52))).
    { assert (Pb := bpow_gt_0 radix2 (-52)). unfold b64_round. destruct (generic_format_EM radix2 (FLT_exp (-1074) 53) g) as [Fg | Ng].
      - assert (E : d = g) by (apply round_generic; [apply valid_rnd_DN | exact Fg]). rewrite round_generic; [nra | apply valid_rnd_N | exact Fg].
      - assert (E := round_UP_DN_ulp radix2 (FLT_exp (-1074) 53) g Ng). fold d in E.
        destruct (round_DN_or_UP radix2 (FLT_exp (-1074) 53) ZnearestE g) as [-> | ->]; [fold d; nra | rewrite E; nra]. }
    assert (A := above_one c Fc C). apply Rle_trans with d; [| exact Ld]. rewrite <- (round_format d Fd). apply round_le.
    apply Rmult_le_reg_r with c; [lra |]. unfold Rdiv. rewrite Rmult_assoc, Rinv_l, Rmult_1_r by lra. nra.
Qed.

(** The quotient of the difference of two heights and the distance of their positions. *)
Lemma slope_any k (a b p : double) : (-1000 <= k)%Z -> (k <= 1000)%Z -> Held k a -> Held k b -> 1 <= Rabs (val p) ->
  finite (d_div (d_sub a b) p) /\ val (d_div (d_sub a b) p) = b64_round (b64_round (val a - val b) / val p).
Proof.
  intros K K' [Fa Ba] [Fb Bb] Hp. unfold val in *.
  assert (B1 : Rabs (b64_round (B2R a - B2R b)) <= bpow radix2 (k + 1)).
  { apply round_abs; [apply bpow_format; lia |]. rewrite <- bpow_2. unfold Rminus. apply Rabs_add_le; [exact Ba | rewrite Rabs_Ropp; exact Bb]. }
  destruct (sub_ok a b Fa Fb) as [F1 E1]; [eapply Rle_lt_trans; [exact B1 | apply bpow_lt; lia] |].
  rewrite <- E1 in B1. assert (NZ : B2R p <> 0) by (intros E; rewrite E, Rabs_R0 in Hp; lra).
  assert (B2 : Rabs (b64_round (B2R (d_sub a b) / B2R p)) <= bpow radix2 (k + 1)).
  { apply round_abs; [apply bpow_format; lia |]. unfold Rdiv. rewrite Rabs_mult, Rabs_inv.
    apply Rmult_le_reg_r with (Rabs (B2R p)); [lra |]. rewrite Rmult_assoc, Rinv_l, Rmult_1_r by lra.
    assert (Q := bpow_ge_0 radix2 (k + 1)). assert (bpow radix2 (k + 1) * 1 <= bpow radix2 (k + 1) * Rabs (B2R p)) by (apply Rmult_le_compat_l; lra). lra. }
  destruct (div_ok (d_sub a b) p NZ F1) as [F2 E2]; [eapply Rle_lt_trans; [exact B2 | apply bpow_lt; lia] |].
  split; [exact F2 |]. rewrite E2, E1. reflexivity.
Qed.
Lemma step_up_any k (hc hr dp : double) : (-1000 <= k)%Z -> (k <= 1000)%Z -> Held k hc -> Held k hr -> 1 < val dp -> val hc <= val hr ->
  let h := d_add hc (d_div (d_sub hr hc) dp) in finite h /\ val hc <= val h <= val hr.
Proof.
  intros K K' Hc Hr Hd L. cbv zeta. destruct (slope_any k hr hc dp K K' Hr Hc) as [Fq Eq]; [rewrite Rabs_pos_eq; lra |].
  set (q := d_div (d_sub hr hc) dp) in *.
  assert (Q : 0 <= val q <= val hr - val hc) by (rewrite Eq; apply shrink_any; [exact L | apply val_format | exact Hd]).
  assert (R : val hc <= b64_round (val hc + val q) <= val hr) by (apply round_between; [apply val_format | apply val_format | lra]).
  destruct Hc as [Fc Bc]. destruct Hr as [Fr Br].
  destruct (add_ok hc q Fc Fq) as [F E].
  { fold (val hc) (val q). apply Rle_lt_trans with (bpow radix2 k); [| apply bpow_lt; lia]. apply Rabs_le. apply Rabs_le_inv in Bc. apply Rabs_le_inv in Br. lra. }
  split; [exact F |]. unfold val in *. rewrite E. exact R.
Qed.
Lemma step_down_any k (hl hc dm : double) : (-1000 <= k)%Z -> (k <= 1000)%Z -> Held k hl -> Held k hc -> val dm < -1 -> val hl <= val hc ->
  let h := d_sub hc (d_div (d_sub hl hc) dm) in finite h /\ val hl <= val h <= val hc.
Proof.
  intros K K' Hl Hc Hd L. cbv zeta. destruct (slope_any k hl hc dm K K' Hl Hc) as [Fq Eq]; [rewrite Rabs_left; lra |].
  set (q := d_div (d_sub hl hc) dm) in *.
  assert (Q : 0 <= val q <= val hc - val hl).
  { rewrite Eq. assert (S := shrink_any hc hl (- val dm) L (generic_format_opp _ _ _ (val_format dm)) ltac:(lra)).
    replace (val hl - val hc) with (- (val hc - val hl)) by ring. rewrite round_minus.
    replace (- b64_round (val hc - val hl) / val dm) with (b64_round (val hc - val hl) / - val dm); [exact S |]. field. lra. }
  assert (R : val hl <= b64_round (val hc - val q) <= val hc) by (apply round_between; [apply val_format | apply val_format | lra]).
  destruct Hc as [Fc Bc]. destruct Hl as [Fr Br].
  destruct (sub_ok hc q Fc Fq) as [F E].
  { fold (val hc) (val q). apply Rle_lt_trans with (bpow radix2 k); [| apply bpow_lt; lia]. apply Rabs_le. apply Rabs_le_inv in Bc. apply Rabs_le_inv in Br. lra. }
  split; [exact F |]. unfold val in *. rewrite E. exact R.
Qed.

(** *** Positions: multiples of 2^900 bound them. *)
Definition Near (n : Z) (x : car DoubleN) : Prop := finite x /\ Rabs (val x) <= IZR n * bpow radix2 900.
Lemma multiple_format n : (0 <= n < 2 ^ 53)%Z -> b64_format (IZR n * bpow radix2 900).
Proof.
  intros H. apply generic_format_FLT. exists (Float radix2 n 900); cbn; [reflexivity | rewrite Z.abs_eq by lia; exact (proj2 H) | lia].
Qed.
Lemma multiple_small n : (0 <= n < 2 ^ 53)%Z -> IZR n * bpow radix2 900 <= bpow radix2 953.
Proof. intros H. change 953%Z with (53 + 900)%Z. rewrite bpow_plus. apply Rmult_le_compat_r; [apply bpow_ge_0 |]. rewrite <- IZR_Zpower by lia. apply IZR_le. change (Zpower radix2 53) with (2 ^ 53)%Z. lia. Qed.
Lemma near_le a b x : (a <= b)%Z -> Near a x -> Near b x.
Proof. intros H [F B]. split; [exact F |]. eapply Rle_trans; [exact B |]. apply Rmult_le_compat_r; [apply bpow_ge_0 | apply IZR_le; exact H]. Qed.
Lemma near_held a x : (0 <= a < 2 ^ 53)%Z -> Near a x -> Held 953 x.
Proof. intros H [F B]. split; [exact F |]. eapply Rle_trans; [exact B | apply multiple_small; exact H]. Qed.
Lemma near_round n r : (0 <= n < 2 ^ 53)%Z -> Rabs r <= IZR n * bpow radix2 900 ->
  Rabs (b64_round r) <= IZR n * bpow radix2 900 /\ Rabs (b64_round r) < bpow radix2 1024.
Proof.
  intros H B. assert (R := round_abs r _ (multiple_format n H) B). split; [exact R |]. eapply Rle_lt_trans; [exact R |].
  eapply Rle_lt_trans; [apply multiple_small; exact H | apply bpow_lt; lia].
Qed.
Lemma near_add a b x y : (0 <= a)%Z -> (0 <= b)%Z -> (a + b < 2 ^ 53)%Z -> Near a x -> Near b y -> Near (a + b) (d_add x y).
Proof.
  intros A B H [Fx Bx] [Fy By]. destruct (near_round (a + b) (val x + val y)) as [R L]; [lia | rewrite plus_IZR, Rmult_plus_distr_r; apply Rabs_add_le; assumption |].
  destruct (add_ok x y Fx Fy L) as [F E]. split; [exact F |]. unfold val at 1. rewrite E. exact R.
Qed.
Lemma near_sub a b x y : (0 <= a)%Z -> (0 <= b)%Z -> (a + b < 2 ^ 53)%Z -> Near a x -> Near b y -> Near (a + b) (d_sub x y).
Proof.
  intros A B H [Fx Bx] [Fy By]. destruct (near_round (a + b) (val x - val y)) as [R L].
  { lia. } { rewrite plus_IZR, Rmult_plus_distr_r. unfold Rminus. apply Rabs_add_le; [exact Bx | rewrite Rabs_Ropp; exact By]. }
  destruct (sub_ok x y Fx Fy L) as [F E]. split; [exact F |]. unfold val at 1. rewrite E. exact R.
Qed.
Lemma near_unit x : Rabs (val x) = 1 -> finite x -> Near 1 x.
Proof. intros E F. split; [exact F |]. rewrite E, Rmult_1_l. change 1 with (bpow radix2 0). apply bpow_le. lia. Qed.

Local Notation H s := (mh DoubleN s).
Local Notation P s := (mp DoubleN s).
Local Notation D s := (md DoubleN s).
(** *** One adjustment *)
Lemma distance_any (d p : double) : Held 990 d -> Held 953 p -> finite (d_sub d p).
Proof.
  intros [Fd Bd] [Fp Bp]. apply sub_ok; [assumption .. |]. fold (val d) (val p).
  assert (B : Rabs (b64_round (val d - val p)) <= bpow radix2 991).
  { apply round_abs; [apply bpow_format; lia |]. change 991%Z with (990 + 1)%Z. rewrite <- bpow_2. unfold Rminus. apply Rabs_add_le; [exact Bd | rewrite Rabs_Ropp].
    eapply Rle_trans; [exact Bp | apply bpow_le; lia]. }
  eapply Rle_lt_trans; [exact B | apply bpow_lt; lia].
Qed.
Lemma adjust_at_any k (M : nat) n s i :
  (-1000 <= k)%Z -> (k <= 1000)%Z -> (0 <= n)%Z -> (n + n + 1 < 2 ^ 53)%Z ->
  length (H s) = M -> length (P s) = M -> length (D s) = M -> (1 <= i)%nat -> (S i < M)%nat ->
  Held k (at_ (H s) (i - 1)) -> Held k (at_ (H s) i) -> Held k (at_ (H s) (S i)) ->
  val (at_ (H s) (i - 1)) <= val (at_ (H s) i) <= val (at_ (H s) (S i)) ->
  Near n (at_ (P s) (i - 1)) -> Near (n - 1) (at_ (P s) i) -> Near n (at_ (P s) (S i)) -> (1 <= n)%Z -> Held 990 (at_ (D s) i) ->
  exists h' p',
    adjust_at DoubleN s i = Ok {| mh := set_nth i h' (H s); mp := set_nth i p' (P s); md := D s |} /\
    Held k h' /\ val (at_ (H s) (i - 1)) <= val h' <= val (at_ (H s) (S i)) /\ Near n p'.
Proof.
  intros K K' N0 Hn Lh Lp Ld Hi HM Ha Hb Hc Ho Wa Wb Wc N1 Hd. unfold adjust_at. replace (i + 1)%nat with (S i) by lia.
  rewrite !(nth_error_nth0 (H s) _ (zero DoubleN)) by (rewrite Lh; lia).
  rewrite !(nth_error_nth0 (P s) _ (zero DoubleN)) by (rewrite Lp; lia).
  rewrite (nth_error_nth0 (D s) _ (zero DoubleN)) by (rewrite Ld; lia).
  set (hl := at_ (H s) (i - 1)) in *. set (hc := at_ (H s) i) in *. set (hr := at_ (H s) (S i)) in *.
  set (pl := at_ (P s) (i - 1)) in *. set (pc := at_ (P s) i) in *. set (pr := at_ (P s) (S i)) in *. cbv zeta.
  assert (Wb' : Near n pc) by (apply (near_le (n - 1)); [lia | exact Wb]).
  assert (Fp : finite (d_sub pr pc)) by (apply (near_sub n n); try assumption; lia).
  assert (Fm : finite (d_sub pl pc)) by (apply (near_sub n n); try assumption; lia).
  assert (Fd : finite (d_sub (at_ (D s) i) pc)) by (apply distance_any; [exact Hd | apply (near_held n); [lia | exact Wb']]).
  set (dd := d_sub (at_ (D s) i) pc) in *.
  change (sub DoubleN (at_ (D s) i) pc) with dd.
  change (sub DoubleN pr pc) with (d_sub pr pc). change (sub DoubleN pl pc) with (d_sub pl pc).
  set (dp := d_sub pr pc) in *. set (dm := d_sub pl pc) in *.
  change (one DoubleN) with d_one. change (zero DoubleN) with d_zero. change (opp DoubleN d_one) with (d_opp d_one).
  change (ltb DoubleN) with d_lt.
  destruct whole_one as [F1 E1]. destruct whole_minus_one as [Fm1 Em1]. destruct whole_zero as [F0 E0].
  destruct ((leb DoubleN d_one dd && d_lt d_one dp) || (leb DoubleN dd (d_opp d_one) && d_lt dm (d_opp d_one))) eqn:G.
  - apply orb_true_iff in G.
    set (sg := if d_lt d_zero dd then d_one else d_opp d_one).
    match goal with |- context [add DoubleN hc (mul DoubleN ?a ?b)] => set (h := add DoubleN hc (mul DoubleN a b)) end.
    set (reg := negb _ && negb _ && negb _).
    assert (Q : Near n (d_add pc sg)).
    { apply (near_le (n - 1 + 1)); [lia |]. apply near_add; [lia | lia | lia | exact Wb |]. unfold sg. destruct (d_lt d_zero dd); apply near_unit; try assumption.
      - rewrite E1. apply Rabs_R1. - rewrite Em1. rewrite Rabs_left; lra. }
    destruct G as [G | G]; apply andb_true_iff in G; destruct G as [G1 G2]; apply leb_true in G1; try assumption.
    + assert (D1 : d_lt d_zero dd = true) by (apply lt_true; try assumption; fold (val d_zero) (val dd); rewrite E0; rewrite E1 in G1; lra).
      assert (D2 : d_lt dd d_zero = false) by (apply lt_false; try assumption; fold (val d_zero) (val dd); rewrite E0; rewrite E1 in G1; lra).
      apply lt_true in G2; try assumption. fold (val d_one) (val dp) in G2. rewrite E1 in G2. rewrite D1, D2. eexists _, _. split; [reflexivity |].
      destruct (step_up_any k hc hr dp K K' Hb Hc G2 (proj2 Ho)) as [Fs Bs].
      match goal with |- Held _ ?x /\ _ => assert (X : finite x /\ val hl <= val x <= val hr) end.
      { destruct (reg && d_lt hl h && d_lt h hr) eqn:R.
        - apply andb_true_iff in R. destruct R as [R R2]. apply andb_true_iff in R. destruct R as [_ R1].
          destruct (lt_squeeze hl h hr (proj1 Ha) (proj1 Hc) R1 R2) as [Fh Bh]. split; [exact Fh | lra].
        - split; [exact Fs |]. split; [eapply Rle_trans; [exact (proj1 Ho) | exact (proj1 Bs)] | exact (proj2 Bs)]. }
      destruct X as [X1 X2]. split; [apply (held_between k hl _ hr); assumption |]. split; [exact X2 |]. unfold sg in Q. rewrite D1 in Q. exact Q.
    + assert (D1 : d_lt d_zero dd = false) by (apply lt_false; try assumption; fold (val d_zero) (val dd); rewrite E0; rewrite Em1 in G1; lra).
      assert (D2 : d_lt dd d_zero = true) by (apply lt_true; try assumption; fold (val d_zero) (val dd); rewrite E0; rewrite Em1 in G1; lra).
      apply lt_true in G2; try assumption. fold (val (d_opp d_one)) (val dm) in G2. rewrite Em1 in G2. rewrite D1, D2. eexists _, _. split; [reflexivity |].
      destruct (step_down_any k hl hc dm K K' Ha Hb G2 (proj1 Ho)) as [Fs Bs].
      match goal with |- Held _ ?x /\ _ => assert (X : finite x /\ val hl <= val x <= val hr) end.
      { destruct (reg && d_lt hl h && d_lt h hr) eqn:R.
        - apply andb_true_iff in R. destruct R as [R R2]. apply andb_true_iff in R. destruct R as [_ R1].
          destruct (lt_squeeze hl h hr (proj1 Ha) (proj1 Hc) R1 R2) as [Fh Bh]. split; [exact Fh | lra].
        - split; [exact Fs |]. split; [exact (proj1 Bs) | eapply Rle_trans; [exact (proj2 Bs) | exact (proj2 Ho)]]. }
      destruct X as [X1 X2]. split; [apply (held_between k hl _ hr); assumption |]. split; [exact X2 |]. unfold sg in Q. rewrite D1 in Q. exact Q.
  - exists hc, pc. split.
    + unfold hc, pc. rewrite !set_nth_same by (rewrite ?Lh, ?Lp; lia). destruct s; reflexivity.
    + split; [exact Hb |]. split; [lra | exact Wb'].
Qed.
Definition AllNear (n : Z) (M : nat) (p : list (car DoubleN)) : Prop := forall i, (i < M)%nat -> Near n (at_ p i).
Lemma adjust_any k (M : nat) n s : (-1000 <= k)%Z -> (k <= 1000)%Z -> (1 <= n)%Z -> (n + n + 1 < 2 ^ 53)%Z -> (2 <= M)%nat ->
  length (H s) = M -> length (P s) = M -> length (D s) = M ->
  AllHeld k M (H s) -> Rising M (H s) -> AllNear (n - 1) M (P s) -> AllHeld 990 M (D s) ->
  exists s', adjust DoubleN M s = Ok s' /\ length (H s') = M /\ length (P s') = M /\ D s' = D s /\
    AllHeld k M (H s') /\ Rising M (H s') /\ AllNear n M (P s') /\
    at_ (H s') 0 = at_ (H s) 0 /\ at_ (H s') (M - 1) = at_ (H s) (M - 1).
Proof.
  intros K K' N1 Hn HM. unfold adjust.
  assert (G : forall c a s, (1 <= a)%nat -> (a + c <= M - 1)%nat ->
    length (H s) = M -> length (P s) = M -> length (D s) = M ->
    AllHeld k M (H s) -> Rising M (H s) -> AllNear n M (P s) -> (forall i, (a <= i)%nat -> (i < M)%nat -> Near (n - 1) (at_ (P s) i)) -> AllHeld 990 M (D s) ->
    exists s', fold_left (fun o i => obnd o (fun s => adjust_at DoubleN s i)) (seq a c) (Ok s) = Ok s' /\
      length (H s') = M /\ length (P s') = M /\ D s' = D s /\
      AllHeld k M (H s') /\ Rising M (H s') /\ AllNear n M (P s') /\
      at_ (H s') 0 = at_ (H s) 0 /\ at_ (H s') (M - 1) = at_ (H s) (M - 1)).
  { clear s. induction c as [| c IH]; intros a s Ha Hc Lh Lp Ld Hh Ho Hp Hp' Hd.
    - exists s. cbn. repeat split; auto; apply Hh || apply Hp; assumption.
    - cbn [seq fold_left obnd].
      assert (O1 := Ho (a - 1)%nat ltac:(lia)). replace (S (a - 1)) with a in O1 by lia.
      destruct (adjust_at_any k M n s a K K' ltac:(lia) Hn Lh Lp Ld Ha ltac:(lia) (Hh (a - 1)%nat ltac:(lia)) (Hh a ltac:(lia)) (Hh (S a) ltac:(lia))
        (conj O1 (Ho a ltac:(lia))) (Hp (a - 1)%nat ltac:(lia)) (Hp' a ltac:(lia) ltac:(lia)) (Hp (S a) ltac:(lia)) N1 (Hd a ltac:(lia)))
        as (h' & p' & E & B1 & B2 & W').
      rewrite E.
      destruct (IH (S a) {| mh := set_nth a h' (H s); mp := set_nth a p' (P s); md := D s |})
        as (s' & E' & R); cbn [mh mp md]; rewrite ?set_nth_length; auto; try lia.
      + intros j Hj. rewrite at_set_d by (rewrite Lh; lia). destruct (Nat.eqb a j); [exact B1 | apply Hh; exact Hj].
      + intros j Hj. rewrite !at_set_d by (rewrite Lh; lia). destruct (Nat.eqb_spec a j) as [<- | N2].
        * destruct (Nat.eqb_spec a (S a)); [lia |]. exact (proj2 B2).
        * destruct (Nat.eqb_spec a (S j)) as [-> | N3].
          -- replace (S j - 1)%nat with j in B2 by lia. exact (proj1 B2).
          -- apply Ho. exact Hj.
      + intros j Hj. rewrite at_set_d by (rewrite Lp; lia). destruct (Nat.eqb a j); [exact W' | apply Hp; exact Hj].
      + intros j Hj Hj'. rewrite at_set_d by (rewrite Lp; lia). destruct (Nat.eqb_spec a j); [lia | apply Hp'; lia].
      + cbn [mh mp md] in R. exists s'. destruct R as (R1' & R2' & R3 & R4 & R5 & R6 & R7 & R8).
        rewrite !at_set_d in R7, R8 by (rewrite Lh; lia).
        destruct (Nat.eqb_spec a 0); [lia |]. destruct (Nat.eqb_spec a (M - 1)); [lia |]. repeat (split; [assumption |]). assumption. }
  intros Lh Lp Ld Hh Ho Hp Hd. apply (G (M - 2)%nat 1%nat s); auto; try lia. intros i Hi. apply (near_le (n - 1)); [lia | apply Hp; exact Hi].
Qed.

(** *** Sorting the first samples *)
Definition first_finite (l : list (car DoubleN * car DoubleN)) : Prop := Forall (fun e => finite (fst e)) l.
Lemma min_element_double (l : list (car DoubleN * car DoubleN)) : first_finite l -> forall i bi (b : double), finite b -> (bi < i)%nat ->
  let r := min_element_from DoubleN l i bi b in
  (r = bi /\ Forall (fun x => val b <= val (fst x)) l) \/
  (exists j x, r = (i + j)%nat /\ nth_error l j = Some x /\ val (fst x) < val b /\ Forall (fun y => val (fst x) <= val (fst y)) l).
Proof.
  induction 1 as [|x l Fx Fl IH]; intros i bi b Fb Hb; cbn [min_element_from]; [left; auto|].
  change (ltb DoubleN (fst x) b) with (d_lt (fst x) b). destruct (d_lt (fst x) b) eqn:E.
  - apply lt_true in E; [| exact Fx | exact Fb]. change (val (fst x) < val b) in E.
    destruct (IH (S i) i (fst x) Fx ltac:(lia)) as [[H1 H2]|(j & y & H1 & H2 & H3 & H4)]; cbv zeta in *; right.
    + exists 0%nat, x. split; [exact (eq_trans H1 (eq_sym (Nat.add_0_r i)))|]. split; [reflexivity|]. split; [exact E|]. constructor; [apply Rle_refl |exact H2].
    + exists (S j), y. split; [exact (eq_trans H1 (plus_n_Sm i j))|]. split; [exact H2|]. split; [exact (Rlt_trans _ _ _ H3 E) |]. constructor; [exact (Rlt_le _ _ H3) |exact H4].
  - apply lt_false in E; [| exact Fx | exact Fb]. change (val b <= val (fst x)) in E.
    destruct (IH (S i) bi b Fb ltac:(lia)) as [[H1 H2]|(j & y & H1 & H2 & H3 & H4)]; cbv zeta in *.
    + left. split; [exact H1|]. constructor; [exact E|exact H2].
    + right. exists (S j), y. split; [exact (eq_trans H1 (plus_n_Sm i j))|]. split; [exact H2|]. split; [exact H3|]. constructor; [exact (Rlt_le _ _ (Rlt_le_trans _ _ _ H3 E)) |exact H4].
Qed.
Lemma sel_sort_double n : forall l : list (car DoubleN * car DoubleN), first_finite l -> length l = n ->
  Permutation l (sel_sort DoubleN n l) /\ Ranked (map fst (sel_sort DoubleN n l)).
Proof.
  induction n as [|n IH]; intros l Fl Hl.
  - destruct l; [|discriminate]. cbn. split; constructor.
  - destruct l as [|x t]; [discriminate|]. cbn [sel_sort]. apply eq_add_S in Hl. inversion Fl as [|? ? Fx Ft]; subst x0 l.
    destruct (min_element_double t Ft 1 0 (fst x) Fx ltac:(lia)) as [[H1 H2]|(j & y & H1 & H2 & H3 & H4)]; cbv zeta in *.
    + rewrite H1. destruct (IH t Ft Hl) as [Pm S]. split; [constructor; exact Pm|].
      cbn [map Ranked]. split; [| exact S]. intros z Hz. apply in_map_iff in Hz. destruct Hz as (e & <- & He). rewrite Forall_forall in H2. apply H2.
      eapply Permutation_in; [symmetry; exact Pm|exact He].
    + rewrite H1. cbn [Nat.add]. assert (Q := set_nth_perm t j x y H2). 
      assert (Fs : first_finite (set_nth j x t)). { apply Forall_forall. intros e He. assert (Fl' := Fl). unfold first_finite in Fl'. rewrite Forall_forall in Fl'. apply Fl'. eapply Permutation_in; [symmetry; exact Q | right; exact He]. }
      destruct (IH (set_nth j x t) Fs (eq_trans (set_nth_length _ _ _) Hl)) as [Pm S].
      rewrite (nth_error_nth t j x H2). split.
      * rewrite Q. constructor. exact Pm.
      * cbn [map Ranked]. split; [| exact S]. intros z Hz. apply in_map_iff in Hz. destruct Hz as (e & <- & He).
        apply (Permutation_in _ (Permutation_sym Pm)) in He.
        assert (He' : In e (x :: t)). { eapply Permutation_in; [symmetry; exact Q|right; exact He]. }
        destruct He' as [<-|He']; [exact (Rlt_le _ _ H3)|]. rewrite Forall_forall in H4. apply H4. exact He'.
Qed.
Lemma cumulate_from_near c : forall (a : car DoubleN) (l : list (car DoubleN)) n, (0 <= n)%Z -> (n + Z.of_nat (length l) < 2 ^ 53)%Z -> Near n a -> Forall (Near 1) l ->
  Forall (Near (n + Z.of_nat (length l))) (cumulate_from DoubleN a c l).
Proof.
  induction c as [| c IH]; intros a l n N0 Hn Ha Hl.
  - assert (E : cumulate_from DoubleN a 0 l = l) by (destruct l; reflexivity). rewrite E. destruct l as [| x l]; [constructor |]. eapply Forall_impl; [| exact Hl]. intros y. apply near_le. cbn [length]. lia.
  - destruct l as [| x l]; [constructor |]. inversion Hl as [| ? ? Hx Hl']; subst. cbn [cumulate_from length] in *.
    assert (A : Near (n + 1) (add DoubleN x a)). { rewrite Z.add_comm. apply near_add; try assumption; lia. }
    constructor; [apply (near_le (n + 1)); [lia | exact A] |]. replace (n + Z.of_nat (S (length l)))%Z with (n + 1 + Z.of_nat (length l))%Z by lia.
    apply IH; [lia | lia | exact A | exact Hl'].
Qed.
Lemma cumulate_near c (l : list (car DoubleN)) : (Z.of_nat (length l) < 2 ^ 53)%Z -> Forall (Near 1) l -> Forall (Near (Z.of_nat (length l))) (cumulate DoubleN c l).
Proof.
  intros Hn Hl. destruct l as [| x l]; [constructor |]. inversion Hl as [| ? ? Hx Hl']; subst. cbn [cumulate length] in *.
  constructor; [apply (near_le 1); [lia | exact Hx] |]. replace (Z.of_nat (S (length l))) with (1 + Z.of_nat (length l))%Z by lia.
  apply cumulate_from_near; [lia | lia | exact Hx | exact Hl'].
Qed.
