(** The P-square estimators with double samples: markers stay ordered, finite and within the samples. *)
From Coq Require Import ZArith List Bool Reals Lra Lia Arith Permutation.
From Flocq Require Import Core IEEE754.BinarySingleNaN.
From Verif Require Import Num NumFacts ModelBasic ModelRolling ModelDensity ModelPSquare ModelRounding ModelDouble SpecStats SpecDouble
  ProofBasic ProofRollingBuf ProofPSquare ProofKahan ProofDouble ProofDouble2 ProofDouble3 ProofDouble4 ProofDouble5 ProofDouble6.
Import ListNotations.
Local Open Scope R_scope.
Local Notation at_ l i := (nth i (l : list (car DoubleN)) (zero DoubleN)).

(** *** Integers as doubles *)
Definition Whole (x : double) (z : Z) : Prop := finite x /\ val x = IZR z.
Lemma whole_add x y a b : Whole x a -> Whole y b -> (Z.abs (a + b) <= 2 ^ 53)%Z -> Whole (d_add x y) (a + b).
Proof.
  intros [Fx Ex] [Fy Ey] H. unfold val in *. destruct (add_ok x y Fx Fy) as [F E].
  { rewrite Ex, Ey, <- plus_IZR, b64_exact_int by exact H. apply int_small; exact H. }
  split; [exact F |]. unfold val. rewrite E, Ex, Ey, <- plus_IZR. apply b64_exact_int; exact H.
Qed.
Lemma whole_sub x y a b : Whole x a -> Whole y b -> (Z.abs (a - b) <= 2 ^ 53)%Z -> Whole (d_sub x y) (a - b).
Proof.
  intros [Fx Ex] [Fy Ey] H. unfold val in *. destruct (sub_ok x y Fx Fy) as [F E].
  { rewrite Ex, Ey, <- minus_IZR, b64_exact_int by exact H. apply int_small; exact H. }
  split; [exact F |]. unfold val. rewrite E, Ex, Ey, <- minus_IZR. apply b64_exact_int; exact H.
Qed.
Lemma whole_one : Whole d_one 1.
Proof. split; [exact one_finite | exact one_value]. Qed.
Lemma whole_minus_one : Whole (d_opp d_one) (-1).
Proof. split; [unfold finite, d_opp; rewrite is_finite_Bopp; exact one_finite |]. unfold val, d_opp. rewrite B2R_Bopp, one_value. lra. Qed.
Lemma whole_zero : Whole d_zero 0.
Proof. split; reflexivity. Qed.
Lemma whole_ofnat n : (Z.of_nat n <= 2 ^ 53)%Z -> Whole (ofnat DoubleN n) (Z.of_nat n).
Proof. intros H. destruct (ofnat_exact n H) as [F E]. split; [exact F |]. unfold val. rewrite E, INR_IZR_INZ. reflexivity. Qed.
Lemma whole_lt x y a b : Whole x a -> Whole y b -> (d_lt x y = true <-> (a < b)%Z).
Proof.
  intros [Fx Ex] [Fy Ey]. unfold val in *. rewrite (lt_true x y Fx Fy), Ex, Ey. split; [apply lt_IZR | apply IZR_lt].
Qed.

(** *** Comparisons *)
Lemma lt_squeeze a h b : finite a -> finite b -> d_lt a h = true -> d_lt h b = true -> finite h /\ val a < val h < val b.
Proof.
  intros Fa Fb H1 H2. assert (Fh : finite h).
  { destruct h as [s | s | | s m e P]; try reflexivity; exfalso.
    - destruct s; [destruct a as [? | [] | | []] | destruct b as [? | [] | | []]]; discriminate.
    - destruct a as [? | [] | | []]; discriminate. }
  split; [exact Fh |]. apply lt_true in H1; [| assumption ..]. apply lt_true in H2; [| assumption ..]. split; assumption.
Qed.
Lemma leb_true x y : finite x -> finite y -> (leb DoubleN x y = true <-> val x <= val y).
Proof.
  intros Fx Fy. unfold leb. rewrite negb_true_iff. change (ltb DoubleN y x) with (d_lt y x). apply lt_false; assumption.
Qed.

(** *** The linear step of a marker *)
Definition Held (k : Z) (x : car DoubleN) : Prop := finite x /\ Rabs (val x) <= bpow radix2 k.
Lemma held_between k a x b : Held k a -> Held k b -> finite x -> val a <= val x <= val b -> Held k x.
Proof.
  intros [_ A] [_ B] F H. split; [exact F |]. apply Rabs_le. apply Rabs_le_inv in A. apply Rabs_le_inv in B. lra.
Qed.
Lemma round_minus r : b64_round (- r) = - b64_round r.
Proof. apply round_NE_opp. Qed.
Lemma whole_is_ofnat x c : Whole x (Z.of_nat c) -> (Z.of_nat c <= 2 ^ 53)%Z -> B2R x = B2R (ofnat DoubleN c).
Proof. intros [_ E] H. destruct (ofnat_exact c H) as [_ E']. rewrite E', INR_IZR_INZ. exact E. Qed.

Lemma shrink_weak (a b : double) (c : nat) : val b <= val a -> (2 <= c)%nat ->
  0 <= b64_round (b64_round (val a - val b) / INR c) <= val a - val b.
Proof.
  intros [L | E] C; [apply shrink; assumption |]. rewrite E. replace (val a - val a) with 0 by ring.
  rewrite (round_format 0 (generic_format_0 _ _)). replace (0 / INR c) with 0 by (unfold Rdiv; ring). rewrite (round_format 0 (generic_format_0 _ _)). lra.
Qed.
(** The quotient of the difference of two heights and the distance of their positions. *)
Lemma slope_ok k (a b p : double) z : (-1000 <= k)%Z -> (k <= 1000)%Z -> (z <> 0)%Z -> Held k a -> Held k b -> Whole p z ->
  finite (d_div (d_sub a b) p) /\ val (d_div (d_sub a b) p) = b64_round (b64_round (val a - val b) / IZR z).
Proof.
  intros K K' Z0 [Fa Ba] [Fb Bb] [Fp Ep]. unfold val in *.
  assert (B1 : Rabs (b64_round (B2R a - B2R b)) <= bpow radix2 (k + 1)).
  { apply round_abs; [apply bpow_format; lia |]. rewrite <- bpow_2. unfold Rminus. apply Rabs_add_le; [exact Ba | rewrite Rabs_Ropp; exact Bb]. }
  destruct (sub_ok a b Fa Fb) as [F1 E1]; [eapply Rle_lt_trans; [exact B1 | apply bpow_lt; lia] |].
  rewrite <- E1 in B1. assert (NZ : IZR z <> 0) by (apply IZR_neq; exact Z0).
  assert (B2 : Rabs (b64_round (B2R (d_sub a b) / B2R p)) <= bpow radix2 (k + 1)).
  { apply round_abs; [apply bpow_format; lia |]. rewrite Ep. unfold Rdiv. rewrite Rabs_mult, Rabs_inv.
    assert (P : 1 <= Rabs (IZR z)) by (rewrite <- abs_IZR; apply IZR_le; lia).
    apply Rmult_le_reg_r with (Rabs (IZR z)); [lra |]. rewrite Rmult_assoc, Rinv_l, Rmult_1_r by lra.
    assert (Q := bpow_ge_0 radix2 (k + 1)). assert (bpow radix2 (k + 1) * 1 <= bpow radix2 (k + 1) * Rabs (IZR z)) by (apply Rmult_le_compat_l; lra). lra. }
  destruct (div_ok (d_sub a b) p) as [F2 E2]; [rewrite Ep; exact NZ | exact F1 | eapply Rle_lt_trans; [exact B2 | apply bpow_lt; lia] |].
  split; [exact F2 |]. rewrite E2, Ep, E1. reflexivity.
Qed.
Lemma step_up k (hc hr dp : double) z : (-1000 <= k)%Z -> (k <= 1000)%Z -> (2 <= z)%Z -> Held k hc -> Held k hr -> Whole dp z -> val hc <= val hr ->
  let h := d_add hc (d_div (d_sub hr hc) dp) in finite h /\ val hc <= val h <= val hr.
Proof.
  intros K K' Z2 Hc Hr Hd L. cbv zeta. destruct (slope_ok k hr hc dp z K K' ltac:(lia) Hr Hc Hd) as [Fq Eq].
  set (q := d_div (d_sub hr hc) dp) in *.
  assert (Q : 0 <= val q <= val hr - val hc).
  { rewrite Eq. assert (S := shrink_weak hr hc (Z.to_nat z) L ltac:(lia)). rewrite INR_IZR_INZ, Z2Nat.id in S by lia. exact S. }
  assert (R : val hc <= b64_round (val hc + val q) <= val hr) by (apply round_between; [apply val_format | apply val_format | lra]).
  destruct Hc as [Fc Bc]. destruct Hr as [Fr Br].
  destruct (add_ok hc q Fc Fq) as [F E].
  { fold (val hc) (val q). apply Rle_lt_trans with (bpow radix2 k); [| apply bpow_lt; lia]. apply Rabs_le. apply Rabs_le_inv in Bc. apply Rabs_le_inv in Br. lra. }
  split; [exact F |]. unfold val in *. rewrite E. exact R.
Qed.
Lemma step_down k (hl hc dm : double) z : (-1000 <= k)%Z -> (k <= 1000)%Z -> (z <= -2)%Z -> Held k hl -> Held k hc -> Whole dm z -> val hl <= val hc ->
  let h := d_sub hc (d_div (d_sub hl hc) dm) in finite h /\ val hl <= val h <= val hc.
Proof.
  intros K K' Z2 Hl Hc Hd L. cbv zeta. destruct (slope_ok k hl hc dm z K K' ltac:(lia) Hl Hc Hd) as [Fq Eq].
  set (q := d_div (d_sub hl hc) dm) in *.
  assert (Q : 0 <= val q <= val hc - val hl).
  { rewrite Eq. assert (S := shrink_weak hc hl (Z.to_nat (- z)) L ltac:(lia)). rewrite INR_IZR_INZ, Z2Nat.id in S by lia.
    replace (val hl - val hc) with (- (val hc - val hl)) by ring. rewrite round_minus. rewrite opp_IZR in S.
    replace (- b64_round (val hc - val hl) / IZR z) with (b64_round (val hc - val hl) / - IZR z); [exact S |].
    field. apply IZR_neq. lia. }
  assert (R : val hl <= b64_round (val hc - val q) <= val hc) by (apply round_between; [apply val_format | apply val_format | lra]).
  destruct Hc as [Fc Bc]. destruct Hl as [Fr Br].
  destruct (sub_ok hc q Fc Fq) as [F E].
  { fold (val hc) (val q). apply Rle_lt_trans with (bpow radix2 k); [| apply bpow_lt; lia]. apply Rabs_le. apply Rabs_le_inv in Bc. apply Rabs_le_inv in Br. lra. }
  split; [exact F |]. unfold val in *. rewrite E. exact R.
Qed.

(** *** One adjustment *)
Local Notation H s := (mh DoubleN s).
Local Notation P s := (mp DoubleN s).
Local Notation D s := (md DoubleN s).

(** A desired position is a number from 0 to n. *)
Definition Desired (n : Z) (x : double) : Prop := finite x /\ 0 <= val x <= IZR n.
Lemma distance_ok n (d p : double) z : (0 <= z <= n)%Z -> (n <= 2 ^ 53)%Z -> Desired n d -> Whole p z -> finite (d_sub d p).
Proof.
  intros Hz Hn [Fd Bd] [Fp Ep]. unfold val in *. apply sub_ok; [assumption .. |]. rewrite Ep.
  assert (Z0 : 0 <= IZR z <= IZR n) by (split; apply IZR_le; lia).
  assert (B : Rabs (b64_round (B2R d - IZR z)) <= IZR n).
  { apply round_abs; [| apply Rabs_le; lra]. rewrite <- (b64_exact_int n) by lia. apply generic_format_round; apply FLT_exp_valid || apply valid_rnd_N; reflexivity. }
  eapply Rle_lt_trans; [exact B |]. rewrite <- (Rabs_pos_eq (IZR n)) by lra. apply int_small. lia.
Qed.

Lemma adjust_at_double k (M : nat) n s i (z : nat -> Z) :
  (-1000 <= k)%Z -> (k <= 1000)%Z -> (n <= 2 ^ 53)%Z ->
  length (H s) = M -> length (P s) = M -> length (D s) = M -> (1 <= i)%nat -> (S i < M)%nat ->
  Held k (at_ (H s) (i - 1)) -> Held k (at_ (H s) i) -> Held k (at_ (H s) (S i)) ->
  val (at_ (H s) (i - 1)) <= val (at_ (H s) i) <= val (at_ (H s) (S i)) ->
  Whole (at_ (P s) (i - 1)) (z (i - 1)%nat) -> Whole (at_ (P s) i) (z i) -> Whole (at_ (P s) (S i)) (z (S i)) ->
  (1 <= z (i - 1)%nat < z i)%Z -> (z i < z (S i) <= n)%Z -> Desired n (at_ (D s) i) ->
  exists h' p' z',
    adjust_at DoubleN s i = Ok {| mh := set_nth i h' (H s); mp := set_nth i p' (P s); md := D s |} /\
    Held k h' /\ val (at_ (H s) (i - 1)) <= val h' <= val (at_ (H s) (S i)) /\ Whole p' z' /\ (z (i - 1)%nat < z' < z (S i))%Z.
Proof.
  intros K K' Hn Lh Lp Ld Hi HM Ha Hb Hc Ho Wa Wb Wc Z1 Z2 Hd. unfold adjust_at. replace (i + 1)%nat with (S i) by lia.
  rewrite !(nth_error_nth0 (H s) _ (zero DoubleN)) by (rewrite Lh; lia).
  rewrite !(nth_error_nth0 (P s) _ (zero DoubleN)) by (rewrite Lp; lia).
  rewrite (nth_error_nth0 (D s) _ (zero DoubleN)) by (rewrite Ld; lia).
  set (hl := at_ (H s) (i - 1)) in *. set (hc := at_ (H s) i) in *. set (hr := at_ (H s) (S i)) in *.
  set (pl := at_ (P s) (i - 1)) in *. set (pc := at_ (P s) i) in *. set (pr := at_ (P s) (S i)) in *. cbv zeta.
  assert (Wp : Whole (d_sub pr pc) (z (S i) - z i)) by (apply whole_sub; try assumption; lia).
  assert (Wm : Whole (d_sub pl pc) (z (i - 1)%nat - z i)) by (apply whole_sub; try assumption; lia).
  assert (Fd : finite (d_sub (at_ (D s) i) pc)) by (apply (distance_ok n _ _ (z i)); try assumption; lia).
  set (dd := d_sub (at_ (D s) i) pc) in *.
  change (sub DoubleN (at_ (D s) i) pc) with dd.
  change (sub DoubleN pr pc) with (d_sub pr pc). change (sub DoubleN pl pc) with (d_sub pl pc).
  set (dp := d_sub pr pc) in *. set (dm := d_sub pl pc) in *.
  change (one DoubleN) with d_one. change (zero DoubleN) with d_zero. change (opp DoubleN d_one) with (d_opp d_one).
  change (ltb DoubleN) with d_lt.
  destruct whole_one as [F1 E1]. destruct whole_minus_one as [Fm1 Em1]. destruct whole_zero as [F0 E0].
  destruct ((leb DoubleN d_one dd && d_lt d_one dp) || (leb DoubleN dd (d_opp d_one) && d_lt dm (d_opp d_one))) eqn:G.
  - apply orb_true_iff in G.
    set (sg := if d_lt d_zero dd then d_one else d_opp d_one).
    match goal with |- context [add DoubleN hc (mul DoubleN ?a ?b)] => set (h := add DoubleN hc (mul DoubleN a b)) end.
    set (reg := negb _ && negb _ && negb _).
    destruct G as [G | G]; apply andb_true_iff in G; destruct G as [G1 G2]; apply leb_true in G1; try assumption.
    + assert (D1 : d_lt d_zero dd = true) by (apply lt_true; try assumption; fold (val d_zero) (val dd); rewrite E0; rewrite E1 in G1; lra).
      assert (D2 : d_lt dd d_zero = false) by (apply lt_false; try assumption; fold (val d_zero) (val dd); rewrite E0; rewrite E1 in G1; lra).
      apply (whole_lt _ _ _ _ whole_one Wp) in G2. subst sg. rewrite D1, D2. eexists _, _, (z i + 1)%Z. split; [reflexivity |].
      assert (Q : Whole (d_add pc d_one) (z i + 1)) by (apply whole_add; [exact Wb | exact whole_one | lia]).
      destruct (step_up k hc hr dp (z (S i) - z i) K K' ltac:(lia) Hb Hc Wp (proj2 Ho)) as [Fs Bs].
      match goal with |- Held _ ?x /\ _ => assert (X : finite x /\ val hl <= val x <= val hr) end.
      { destruct (reg && d_lt hl h && d_lt h hr) eqn:R.
        - apply andb_true_iff in R. destruct R as [R R2]. apply andb_true_iff in R. destruct R as [_ R1].
          destruct (lt_squeeze hl h hr (proj1 Ha) (proj1 Hc) R1 R2) as [Fh Bh]. split; [exact Fh | lra].
        - split; [exact Fs |]. split; [eapply Rle_trans; [exact (proj1 Ho) | exact (proj1 Bs)] | exact (proj2 Bs)]. }
      destruct X as [X1 X2]. split; [apply (held_between k hl _ hr); assumption |]. split; [exact X2 |]. split; [exact Q | lia].
    + assert (D1 : d_lt d_zero dd = false) by (apply lt_false; try assumption; fold (val d_zero) (val dd); rewrite E0; rewrite Em1 in G1; lra).
      assert (D2 : d_lt dd d_zero = true) by (apply lt_true; try assumption; fold (val d_zero) (val dd); rewrite E0; rewrite Em1 in G1; lra).
      apply (whole_lt _ _ _ _ Wm whole_minus_one) in G2. subst sg. rewrite D1, D2. eexists _, _, (z i + -1)%Z. split; [reflexivity |].
      assert (Q : Whole (d_add pc (d_opp d_one)) (z i + -1)) by (apply whole_add; [exact Wb | exact whole_minus_one | lia]).
      destruct (step_down k hl hc dm (z (i - 1)%nat - z i) K K' ltac:(lia) Ha Hb Wm (proj1 Ho)) as [Fs Bs].
      match goal with |- Held _ ?x /\ _ => assert (X : finite x /\ val hl <= val x <= val hr) end.
      { destruct (reg && d_lt hl h && d_lt h hr) eqn:R.
        - apply andb_true_iff in R. destruct R as [R R2]. apply andb_true_iff in R. destruct R as [_ R1].
          destruct (lt_squeeze hl h hr (proj1 Ha) (proj1 Hc) R1 R2) as [Fh Bh]. split; [exact Fh | lra].
        - split; [exact Fs |]. split; [exact (proj1 Bs) | eapply Rle_trans; [exact (proj2 Bs) | exact (proj2 Ho)]]. }
      destruct X as [X1 X2]. split; [apply (held_between k hl _ hr); assumption |]. split; [exact X2 |]. split; [exact Q | lia].
  - exists hc, pc, (z i). split.
    + unfold hc, pc. rewrite !set_nth_same by (rewrite ?Lh, ?Lp; lia). destruct s; reflexivity.
    + split; [exact Hb |]. split; [lra |]. split; [exact Wb | lia].
Qed.

(** *** The loop *)
Definition Rising (M : nat) (h : list (car DoubleN)) : Prop := forall i, (S i < M)%nat -> val (at_ h i) <= val (at_ h (S i)).
Definition AllHeld (k : Z) (M : nat) (h : list (car DoubleN)) : Prop := forall i, (i < M)%nat -> Held k (at_ h i).
Definition Placed (M : nat) (n : Z) (p : list (car DoubleN)) (z : nat -> Z) : Prop :=
  z 0%nat = 1%Z /\ z (M - 1)%nat = n /\ (forall i, (i < M)%nat -> Whole (at_ p i) (z i)) /\ forall i, (S i < M)%nat -> (z i < z (S i))%Z.
Definition AllDesired (M : nat) (n : Z) (d : list (car DoubleN)) : Prop := forall i, (i < M)%nat -> Desired n (at_ d i).

Lemma placed_le M n p z i j : Placed M n p z -> (i <= j)%nat -> (j < M)%nat -> (z i <= z j)%Z.
Proof.
  intros (_ & _ & _ & S) L Hj. induction j as [| j IH]; [replace i with O by lia; lia |].
  destruct (Nat.eq_dec i (Datatypes.S j)) as [-> | N]; [lia |]. specialize (IH ltac:(lia) ltac:(lia)). specialize (S j Hj). lia.
Qed.
Lemma placed_range M n p z i : Placed M n p z -> (i < M)%nat -> (1 <= z i <= n)%Z.
Proof.
  intros H Hi. assert (A := placed_le M n p z 0 i H ltac:(lia) Hi). assert (B := placed_le M n p z i (M - 1) H ltac:(lia) ltac:(lia)).
  destruct H as (Z0 & Zn & _). lia.
Qed.
Lemma rising_le M h i j : Rising M h -> (i <= j)%nat -> (j < M)%nat -> val (at_ h i) <= val (at_ h j).
Proof.
  intros S L Hj. induction j as [| j IH]; [replace i with O by lia; lra |].
  destruct (Nat.eq_dec i (Datatypes.S j)) as [-> | N]; [lra |]. specialize (IH ltac:(lia) ltac:(lia)). specialize (S j Hj). lra.
Qed.
Lemma at_set_d (l : list (car DoubleN)) i v j : (i < length l)%nat -> at_ (set_nth i v l) j = if Nat.eqb i j then v else at_ l j.
Proof. apply nth_set_nth. Qed.

Lemma adjust_double k (M : nat) n s z : (-1000 <= k)%Z -> (k <= 1000)%Z -> (n <= 2 ^ 53)%Z -> (2 <= M)%nat ->
  length (H s) = M -> length (P s) = M -> length (D s) = M ->
  AllHeld k M (H s) -> Rising M (H s) -> Placed M n (P s) z -> AllDesired M n (D s) ->
  exists s' z', adjust DoubleN M s = Ok s' /\ length (H s') = M /\ length (P s') = M /\ D s' = D s /\
    AllHeld k M (H s') /\ Rising M (H s') /\ Placed M n (P s') z' /\
    at_ (H s') 0 = at_ (H s) 0 /\ at_ (H s') (M - 1) = at_ (H s) (M - 1).
Proof.
  intros K K' Hn HM. unfold adjust.
  assert (G : forall c a s z, (1 <= a)%nat -> (a + c <= M - 1)%nat ->
    length (H s) = M -> length (P s) = M -> length (D s) = M ->
    AllHeld k M (H s) -> Rising M (H s) -> Placed M n (P s) z -> AllDesired M n (D s) ->
    exists s' z', fold_left (fun o i => obnd o (fun s => adjust_at DoubleN s i)) (seq a c) (Ok s) = Ok s' /\
      length (H s') = M /\ length (P s') = M /\ D s' = D s /\
      AllHeld k M (H s') /\ Rising M (H s') /\ Placed M n (P s') z' /\
      at_ (H s') 0 = at_ (H s) 0 /\ at_ (H s') (M - 1) = at_ (H s) (M - 1)).
  { clear s z. induction c as [| c IH]; intros a s z Ha Hc Lh Lp Ld Hh Ho Hp Hd.
    - exists s, z. cbn. repeat split; auto; apply Hh || apply Hp; assumption.
    - cbn [seq fold_left obnd]. assert (Hp' := Hp). destruct Hp' as (Z0 & Zn & Zw & Zs).
      assert (O1 := Ho (a - 1)%nat ltac:(lia)). assert (S1 := Zs (a - 1)%nat ltac:(lia)). replace (S (a - 1)) with a in O1, S1 by lia.
      assert (R1 := placed_range M n (P s) z (a - 1) Hp ltac:(lia)). assert (R2 := placed_range M n (P s) z (S a) Hp ltac:(lia)).
      assert (S2 := Zs a ltac:(lia)).
      destruct (adjust_at_double k M n s a z K K' Hn Lh Lp Ld Ha ltac:(lia) (Hh (a - 1)%nat ltac:(lia)) (Hh a ltac:(lia)) (Hh (S a) ltac:(lia))
        (conj O1 (Ho a ltac:(lia))) (Zw (a - 1)%nat ltac:(lia)) (Zw a ltac:(lia)) (Zw (S a) ltac:(lia)) ltac:(lia) ltac:(lia) (Hd a ltac:(lia)))
        as (h' & p' & z' & E & B1 & B2 & W' & B3).
      rewrite E.
      destruct (IH (S a) {| mh := set_nth a h' (H s); mp := set_nth a p' (P s); md := D s |} (fun j => if Nat.eqb a j then z' else z j))
        as (s' & zz & E' & R); cbn [mh mp md]; rewrite ?set_nth_length; auto; try lia.
      + intros j Hj. rewrite at_set_d by (rewrite Lh; lia). destruct (Nat.eqb a j); [exact B1 | apply Hh; exact Hj].
      + intros j Hj. rewrite !at_set_d by (rewrite Lh; lia). destruct (Nat.eqb_spec a j) as [<- | N1].
        * destruct (Nat.eqb_spec a (S a)); [lia |]. exact (proj2 B2).
        * destruct (Nat.eqb_spec a (S j)) as [-> | N2].
          -- replace (S j - 1)%nat with j in B2 by lia. exact (proj1 B2).
          -- apply Ho. exact Hj.
      + split; [destruct (Nat.eqb_spec a 0); [lia | exact Z0] |]. split; [destruct (Nat.eqb_spec a (M - 1)); [lia | exact Zn] |]. split.
        * intros j Hj. rewrite at_set_d by (rewrite Lp; lia). destruct (Nat.eqb a j); [exact W' | apply Zw; exact Hj].
        * intros j Hj. destruct (Nat.eqb_spec a j) as [<- | N1].
          -- destruct (Nat.eqb_spec a (S a)); [lia |]. lia.
          -- destruct (Nat.eqb_spec a (S j)) as [-> | N2]; [| apply Zs; exact Hj]. replace (S j - 1)%nat with j in B3 by lia. lia.
      + cbn [mh mp md] in R. exists s', zz. destruct R as (R1' & R2' & R3 & R4 & R5 & R6 & R7 & R8).
        rewrite !at_set_d in R7, R8 by (rewrite Lh; lia).
        destruct (Nat.eqb_spec a 0); [lia |]. destruct (Nat.eqb_spec a (M - 1)); [lia |]. repeat (split; [assumption |]). assumption. }
  intros. apply (G (M - 2)%nat 1%nat s z); auto; lia.
Qed.

(** *** Locating a sample *)
Lemma locate_double k (M : nat) (h : list (car DoubleN)) (x : car DoubleN) : (2 <= M)%nat -> length h = M -> AllHeld k M h -> Rising M h -> Held k x ->
  exists h' c, locate DoubleN M h x = Ok (h', c) /\ length h' = M /\ AllHeld k M h' /\ Rising M h' /\ (1 <= c)%nat /\ (c <= M - 1)%nat /\
    at_ h' 0 = (if d_lt x (at_ h 0) then x else at_ h 0) /\
    at_ h' (M - 1) = (if d_lt x (at_ h (M - 1)) then at_ h (M - 1) else x).
Proof.
  intros HM Lh Hh Ho Hx. unfold locate. rewrite !(nth_error_nth0 h _ (zero DoubleN)) by (rewrite Lh; lia).
  change (ltb DoubleN) with d_lt.
  assert (A0 := rising_le M h 0 (M - 1) Ho ltac:(lia) ltac:(lia)).
  assert (H0 := Hh 0%nat ltac:(lia)). assert (Hm := Hh (M - 1)%nat ltac:(lia)).
  destruct (d_lt x (at_ h 0)) eqn:E0.
  - apply lt_true in E0; [| apply Hx | apply H0]. fold (val x) (val (at_ h 0)) in E0.
    exists (set_nth 0 x h), 1%nat. rewrite set_nth_length. split; [reflexivity |]. split; [exact Lh |].
    split; [intros j Hj; rewrite at_set_d by (rewrite Lh; lia); destruct (Nat.eqb 0 j); [exact Hx | apply Hh; exact Hj] |].
    split; [| split; [lia |]; split; [lia |]; split].
    + intros j Hj. rewrite !at_set_d by (rewrite Lh; lia). destruct (Nat.eqb_spec 0 j) as [<- | N].
      * cbn [Nat.eqb]. specialize (Ho 0%nat ltac:(lia)). lra.
      * destruct (Nat.eqb_spec 0 (S j)); [lia |]. apply Ho. exact Hj.
    + rewrite at_set_d by (rewrite Lh; lia). reflexivity.
    + rewrite at_set_d by (rewrite Lh; lia). destruct (Nat.eqb_spec 0 (M - 1)); [lia |].
      assert (F : d_lt x (at_ h (M - 1)) = true) by (apply lt_true; [apply Hx | apply Hm |]; fold (val x) (val (at_ h (M - 1))); lra).
      rewrite F. reflexivity.
  - destruct (leb DoubleN (at_ h (M - 1)) x) eqn:E1.
    + assert (E1' := E1). apply leb_true in E1; [| apply Hm | apply Hx]. exists (set_nth (M - 1) x h), (M - 1)%nat. rewrite set_nth_length.
      split; [reflexivity |]. split; [exact Lh |].
      split; [intros j Hj; rewrite at_set_d by (rewrite Lh; lia); destruct (Nat.eqb (M - 1) j); [exact Hx | apply Hh; exact Hj] |].
      split; [| split; [lia |]; split; [lia |]; split].
      * intros j Hj. rewrite !at_set_d by (rewrite Lh; lia). destruct (Nat.eqb_spec (M - 1) j) as [<- | N]; [lia |].
        destruct (Nat.eqb_spec (M - 1) (S j)) as [Q | N2]; [| apply Ho; exact Hj]. specialize (Ho j Hj). rewrite <- Q in Ho. lra.
      * rewrite at_set_d by (rewrite Lh; lia). destruct (Nat.eqb_spec (M - 1) 0); [lia |]. reflexivity.
      * rewrite at_set_d by (rewrite Lh; lia). rewrite Nat.eqb_refl. unfold leb in E1'. apply negb_true_iff in E1'.
        change (ltb DoubleN) with d_lt in E1'. rewrite E1'. reflexivity.
    + assert (E2 : d_lt x (at_ h (M - 1)) = true). { unfold leb in E1. apply negb_false_iff in E1. exact E1. }
      exists h, (upper_bound DoubleN h x). split; [reflexivity |]. split; [exact Lh |]. split; [exact Hh |]. split; [exact Ho |].
      split; [apply (upper_bound_pos DoubleN h x M); [lia | exact Lh | exact E0] |].
      split; [apply upper_bound_lt; [rewrite Lh; lia | exact E2] |]. split; [reflexivity |]. rewrite E2. reflexivity.
Qed.

(** *** Sorting the first samples *)
Fixpoint Ranked (l : list (car DoubleN)) : Prop := match l with [] => True | a :: t => (forall x, In x t -> val a <= val x) /\ Ranked t end.
Lemma std_insert_in (x y : car DoubleN) l : In y (std_insert DoubleN x l) <-> y = x \/ In y l.
Proof.
  induction l as [| a l IH]; cbn [std_insert In]; [intuition |]. destruct (ltb DoubleN a x); cbn [In]; [rewrite IH |]; intuition.
Qed.
Lemma std_insert_ranked (x : car DoubleN) l : finite x -> Forall finite l -> Ranked l -> Ranked (std_insert DoubleN x l).
Proof.
  intros Fx. induction l as [| a l IH]; intros Fl R; cbn [std_insert]; [split; [intros ? [] | exact I] |].
  inversion Fl as [| ? ? Fa Fl']; subst. destruct R as [R1 R2]. change (ltb DoubleN a x) with (d_lt a x). destruct (d_lt a x) eqn:E.
  - apply lt_true in E; [| exact Fa | exact Fx]. split; [| apply IH; assumption]. intros y Hy. apply std_insert_in in Hy. destruct Hy as [-> | Hy]; [left; exact E | apply R1; exact Hy].
  - apply lt_false in E; [| exact Fa | exact Fx]. split; [| split; assumption]. intros y [<- | Hy]; [exact E |]. specialize (R1 y Hy). unfold val in *. lra.
Qed.
Lemma std_sort_in (y : car DoubleN) l : In y (std_sort DoubleN l) <-> In y l.
Proof. unfold std_sort. induction l as [| a l IH]; cbn [fold_right]; [reflexivity |]. rewrite std_insert_in, IH. cbn [In]. intuition. Qed.
Lemma std_sort_ranked (l : list (car DoubleN)) : Forall finite l -> Ranked (std_sort DoubleN l).
Proof.
  induction l as [| a l IH]; intros F; [exact I |]. inversion F as [| ? ? Fa Fl]; subst. cbn. apply std_insert_ranked; [exact Fa | | apply IH; exact Fl].
  apply Forall_forall. intros x Hx. apply (std_sort_in x l) in Hx. rewrite Forall_forall in Fl. apply Fl, Hx.
Qed.
Lemma std_sort_len (l : list (car DoubleN)) : length (std_sort DoubleN l) = length l.
Proof. symmetry. apply Permutation_length. rewrite std_sort_sort_by. apply ProofTail.sort_by_perm. Qed.
Lemma ranked_at (l : list (car DoubleN)) i j : Ranked l -> (i <= j)%nat -> (j < length l)%nat -> val (at_ l i) <= val (at_ l j).
Proof.
  revert i j. induction l as [| a l IH]; intros i j R L Hj; [cbn in Hj; lia |]. destruct R as [R1 R2]. cbn [length] in Hj.
  destruct i as [| i], j as [| j]; cbn [nth]; try lia; [apply Rle_refl | apply R1, nth_In; lia |]. apply IH; [exact R2 | lia | lia].
Qed.

(** *** A sample *)
Lemma desired_next M n (d inc : list (car DoubleN)) : (n + 1 <= 2 ^ 53)%Z -> (0 <= n)%Z -> length d = M -> length inc = M ->
  AllDesired M n d -> AllDesired M 1 inc ->
  exists d', des_inc DoubleN inc d_zero d d = Ok d' /\ length d' = M /\ AllDesired M (n + 1) d'.
Proof.
  intros Hn Hn0 Ld Li Hd Hi. eexists. split; [reflexivity |]. split; [rewrite map_length, combine_length; lia |].
  intros i HI.
  set (f := fun c : car DoubleN * car DoubleN => add DoubleN (fst c) (snd c)).
  rewrite (nth_indep _ _ (f (zero DoubleN, zero DoubleN))) by (rewrite map_length, combine_length; lia).
  rewrite map_nth, combine_nth by lia. unfold f. cbn [fst snd].
  destruct (Hd i HI) as [Fd Bd]. destruct (Hi i HI) as [Fi Bi]. change (add DoubleN) with d_add.
  assert (R : 0 <= b64_round (val (at_ d i) + val (at_ inc i)) <= IZR (n + 1)).
  { apply round_between; [apply generic_format_0 | | rewrite plus_IZR; lra].
    rewrite <- (b64_exact_int (n + 1)) by lia. apply generic_format_round; apply FLT_exp_valid || apply valid_rnd_N; reflexivity. }
  destruct (add_ok (at_ d i) (at_ inc i) Fd Fi) as [F E].
  { fold (val (at_ d i)) (val (at_ inc i)). rewrite Rabs_pos_eq by lra. eapply Rle_lt_trans; [exact (proj2 R) |].
    rewrite <- (Rabs_pos_eq (IZR (n + 1))) by lra. apply int_small. lia. }
  split; [exact F |]. unfold val in *. rewrite E. exact R.
Qed.
Lemma spans_next (xs : list double) a b x : Held 1000 a -> Forall finite (x :: b :: xs) -> Spans xs a b ->
  Spans (xs ++ [x]) (if d_lt x a then x else a) (if d_lt x b then b else x).
Proof.
  intros [Fa _] HF (Ia & Ib & S). inversion HF as [| ? ? Fx HF']; subst. inversion HF' as [| ? ? Fb _]; subst.
  assert (Sa := S a Ia). assert (Sb := S b Ib). split; [destruct (d_lt x a); apply in_or_app; [right; left; reflexivity | left; exact Ia] |].
  split; [destruct (d_lt x b); apply in_or_app; [left; exact Ib | right; left; reflexivity] |].
  intros y Hy. destruct (d_lt x a) eqn:E1; (apply lt_true in E1 || apply lt_false in E1); try assumption;
    destruct (d_lt x b) eqn:E2; (apply lt_true in E2 || apply lt_false in E2); try assumption; unfold val in *;
    apply in_app_or in Hy; destruct Hy as [Hy | [<- | []]]; try (specialize (S y Hy)); lra.
Qed.

(** *** The whole history *)
Section Run.
Variable k : Z.
Hypothesis K : (-1000 <= k)%Z.
Hypothesis K' : (k <= 1000)%Z.
Variable M : nat.
Hypothesis HM : (2 <= M)%nat.
Variable inc : list (car DoubleN).
Hypothesis Linc : length inc = M.
Hypothesis Hinc : AllDesired M 1 inc.
Variable m0 : marks DoubleN.
Hypothesis L0h : length (H m0) = M.
Hypothesis L0p : length (P m0) = M.
Hypothesis L0d : length (D m0) = M.
Hypothesis P0 : forall i, (i < M)%nat -> Whole (at_ (P m0) i) (Z.of_nat i + 1).
Hypothesis D0 : AllDesired M (Z.of_nat M) (D m0).

Definition Ready (xs : list (car DoubleN)) (m : marks DoubleN) : Prop :=
  length (H m) = M /\ length (P m) = M /\ length (D m) = M /\ AllHeld k M (H m) /\ Rising M (H m) /\
  (exists z, Placed M (Z.of_nat (length xs)) (P m) z) /\ AllDesired M (Z.of_nat (length xs)) (D m) /\
  Spans xs (at_ (H m) 0) (at_ (H m) (M - 1)).
Definition Filling (xs : list (car DoubleN)) (m : marks DoubleN) : Prop :=
  length (H m) = M /\ P m = P m0 /\ D m = D m0 /\ forall i, (i < length xs)%nat -> at_ (H m) i = at_ xs i.

Lemma operate_double (xs : list (car DoubleN)) (x : car DoubleN) m w : Forall (Held k) (xs ++ [x]) -> (Z.of_nat (length (xs ++ [x])) <= 2 ^ 53)%Z ->
  (if Nat.ltb (length xs) M then Filling xs m else Ready xs m) ->
  exists m', psq_operate DoubleN M false 0 (des_inc DoubleN inc) (S (length xs)) w m x d_one = Ok m' /\
    (if Nat.ltb (length (xs ++ [x])) M then Filling (xs ++ [x]) m' else Ready (xs ++ [x]) m').
Proof.
  intros HX HN HI. assert (LX : length (xs ++ [x]) = S (length xs)) by (rewrite app_length; cbn; lia).
  assert (Hx : Held k x) by (rewrite Forall_forall in HX; apply HX, in_or_app; right; left; reflexivity).
  unfold psq_operate. destruct (Nat.leb_spec (S (length xs)) M) as [L | L].
  - destruct (Nat.ltb_spec (length xs) M) as [L' | L']; [| lia]. destruct HI as (Lh & Ep & Ed & HA).
    replace (S (length xs) - 1)%nat with (length xs) by lia.
    assert (Q : forall i, (i < S (length xs))%nat -> at_ (set_nth (length xs) x (H m)) i = at_ (xs ++ [x]) i).
    { intros i Hi. rewrite at_set_d by (rewrite Lh; lia). destruct (Nat.eqb_spec (length xs) i) as [<- | N].
      - rewrite app_nth2, Nat.sub_diag by lia. reflexivity.
      - rewrite app_nth1 by lia. apply HA. lia. }
    destruct (Nat.eqb_spec (S (length xs)) M) as [E | E]; eexists; (split; [reflexivity |]); rewrite LX.
    + destruct (Nat.ltb_spec (S (length xs)) M) as [X | X]; [lia |].
      assert (EQ : set_nth (length xs) x (H m) = xs ++ [x]).
      { apply (nth_ext _ _ (zero DoubleN) (zero DoubleN)); [rewrite set_nth_length, LX, Lh; lia |]. rewrite set_nth_length, Lh. intros i Hi. apply Q. lia. }
      rewrite EQ. assert (LS := std_sort_len (xs ++ [x])). rewrite LX, E in LS.
      assert (RS : Ranked (std_sort DoubleN (xs ++ [x]))).
      { apply std_sort_ranked. eapply Forall_impl; [| exact HX]. intros a Ha. apply Ha. }
      split; [exact LS |]. cbn [mh mp md]. rewrite Ep, Ed. split; [exact L0p |]. split; [exact L0d |]. split; [| split; [| split; [| split]]].
      * intros i Hi. rewrite Forall_forall in HX. apply HX. apply (std_sort_in _ (xs ++ [x])). apply nth_In. rewrite LS. exact Hi.
      * intros i Hi. apply ranked_at; [exact RS | lia |]. rewrite LS. exact Hi.
      * exists (fun i => Z.of_nat i + 1)%Z. split; [reflexivity |]. split; [rewrite LX; lia |]. split; [exact P0 | intros; lia].
      * rewrite LX, E. exact D0.
      * split; [apply (std_sort_in _ (xs ++ [x])), nth_In; rewrite LS; lia |]. split; [apply (std_sort_in _ (xs ++ [x])), nth_In; rewrite LS; lia |].
        intros y Hy. apply (proj2 (std_sort_in y (xs ++ [x]))) in Hy. destruct (In_nth _ y (zero DoubleN) Hy) as (j & Hj & <-).
        assert (Hj' : (j < M)%nat) by (rewrite <- LS; exact Hj). split; apply ranked_at; try assumption; try lia; rewrite LS; lia.
    + destruct (Nat.ltb_spec (S (length xs)) M) as [X | X]; [| lia]. split; [cbn; rewrite set_nth_length; exact Lh |].
      split; [exact Ep |]. split; [exact Ed |]. cbn [mh]. rewrite LX. exact Q.
  - destruct (Nat.ltb_spec (length xs) M) as [L' | L']; [lia |]. destruct HI as (Lh & Lp & Ld & Hh & Ho & (z & Hp) & Hd & HS).
    rewrite LX in *. destruct (Nat.ltb_spec (S (length xs)) M) as [X | X]; [lia |].
    unfold msync. destruct (locate_double k M (H m) x HM Lh Hh Ho Hx) as (h' & c & EL & Lh' & Hh' & Ho' & C1 & C2 & E0 & E1).
    rewrite EL. cbn [obnd fst snd andb].
    assert (EP : match nth_error (H m) 0 with Some _ => P m | None => P m end = P m) by (destruct (nth_error (H m) 0); reflexivity).
    assert (EP' : match nth_error (H m) 0 with Some a => P m | None => P m end = P m) by exact EP. rewrite EP.
    set (p := bump DoubleN c d_one (P m)).
    assert (LP' : length p = M) by (unfold p; rewrite bump_length; exact Lp).
    destruct (desired_next M (Z.of_nat (length xs)) (D m) inc ltac:(lia) ltac:(lia) Ld Linc Hd Hinc) as (d' & Ed & Ld' & Hd').
    change (des_inc DoubleN inc w p (D m)) with (des_inc DoubleN inc d_zero (D m) (D m)). rewrite Ed. cbn [obnd].
    assert (HP' : Placed M (Z.of_nat (length xs) + 1) p (fun i => if Nat.ltb i c then z i else z i + 1)%Z).
    { destruct Hp as (Z0 & Zn & Zw & Zs). split; [destruct (Nat.ltb_spec 0 c); [exact Z0 | lia] |].
      split; [destruct (Nat.ltb_spec (M - 1) c); [lia | rewrite Zn; reflexivity] |].
      assert (HPl : Placed M (Z.of_nat (length xs)) (P m) z) by (repeat split; try apply Zw; assumption).
      split.
      - intros i Hi. unfold p. rewrite bump_at by (rewrite Lp; exact Hi). destruct (Nat.ltb i c); [apply Zw; exact Hi |].
        change (add DoubleN) with d_add. apply whole_add; [apply Zw; exact Hi | exact whole_one |].
        assert (R := placed_range _ _ _ _ i HPl Hi). lia.
      - intros i Hi. specialize (Zs i Hi). destruct (Nat.ltb_spec i c), (Nat.ltb_spec (S i) c); lia. }
    destruct (adjust_double k M (Z.of_nat (length xs) + 1) {| mh := h'; mp := p; md := d' |} _ K K' ltac:(lia) HM Lh' LP' Ld' Hh' Ho' HP' Hd')
      as (s' & z' & EA & A1 & A2 & A3 & A4 & A5 & A6 & A7 & A8).
    exists s'. split; [exact EA |]. cbn [mh mp md] in *. rewrite E0 in A7. rewrite E1 in A8.
    replace (Z.of_nat (length xs) + 1)%Z with (Z.of_nat (length (xs ++ [x]))) in * by (rewrite LX; lia).
    split; [exact A1 |]. split; [exact A2 |]. split; [rewrite A3; exact Ld' |]. split; [exact A4 |]. split; [exact A5 |]. split; [exists z'; exact A6 |].
    split; [rewrite A3; exact Hd' |]. rewrite A7, A8. apply spans_next; [| | exact HS].
    + destruct (Hh 0%nat ltac:(lia)) as [F B]. split; [exact F |]. eapply Rle_trans; [exact B | apply bpow_le; lia].
    + constructor; [apply Hx |]. constructor; [apply Hh; lia |]. apply Forall_app in HX. eapply Forall_impl; [| exact (proj1 HX)]. intros a Ha. apply Ha.
Qed.

Lemma run_double (xs : list (car DoubleN)) : Forall (Held k) xs -> (Z.of_nat (length xs) <= 2 ^ 53)%Z ->
  exists s, psq_run DoubleN M false 0 (des_inc DoubleN inc) m0 (units DoubleN xs) = Ok s /\ ps_count DoubleN s = length xs /\
    if Nat.ltb (length xs) M then Filling xs (ps_marks DoubleN s) else Ready xs (ps_marks DoubleN s).
Proof.
  unfold psq_run, units. induction xs as [| x xs IH] using rev_ind; intros HX HN.
  - eexists. split; [reflexivity |]. split; [reflexivity |]. cbn [length ps_marks]. destruct (Nat.ltb_spec 0 M); [| lia].
    split; [exact L0h |]. split; [reflexivity |]. split; [reflexivity |]. cbn; intros; lia.
  - assert (HX' := HX). apply Forall_app in HX'. rewrite app_length in HN. cbn [length] in HN.
    destruct (IH (proj1 HX') ltac:(lia)) as (s & E & C & I).
    rewrite map_app, fold_left_app, E. cbn [map fold_left obnd fst snd]. unfold psq_push. rewrite C.
    destruct (operate_double xs x (ps_marks DoubleN s) (add DoubleN (ps_wsum DoubleN s) (one DoubleN)) HX) as (m' & E' & I');
      [rewrite app_length; cbn [length]; lia | exact I |].
    change (one DoubleN) with d_one in *. rewrite E'. cbn [obnd]. eexists. split; [reflexivity |]. cbn [ps_count ps_marks].
    split; [rewrite app_length; cbn [length]; lia | exact I'].
Qed.
Lemma run_ready (xs : list (car DoubleN)) : Forall (Held k) xs -> (Z.of_nat (length xs) <= 2 ^ 53)%Z -> (M <= length xs)%nat ->
  exists s, psq_run DoubleN M false 0 (des_inc DoubleN inc) m0 (units DoubleN xs) = Ok s /\ ps_count DoubleN s = length xs /\ Ready xs (ps_marks DoubleN s).
Proof.
  intros HX HN HL. destruct (run_double xs HX HN) as (s & E & C & I). exists s. split; [exact E |]. split; [exact C |].
  destruct (Nat.ltb_spec (length xs) M) as [X | X]; [lia | exact I].
Qed.
End Run.
