(** Weighted sums of integers and the examples of C52. *)
From Coq Require Import List ZArith Bool Lia Field QArith Qcanon.
From Verif Require Import Num NumFacts ModelPSquare ModelMinMax ModelBasic ModelRolling ModelNumeric ModelInteger
  SpecStats SpecInteger SpecRolling ProofBasic ProofRolling ProofInteger ProofInteger2 ProofInteger3.
Import ListNotations.
Open Scope Z_scope.

Lemma common_promoted S W : promote (common S W) = common S W.
Proof.
  assert (H : forall T, promote (promote T) = promote T).
  { intros T. unfold promote. destruct (bits T <? 32) eqn:E; [reflexivity | now rewrite E]. }
  unfold common. destruct (Bool.eqb _ _); [|destruct (signed (promote S))]; match goal with |- context [if ?b then _ else _] => destruct b end; apply H.
Qed.
Lemma common_width S W : StandardWidth S -> StandardWidth W -> StandardWidth (common S W).
Proof.
  intros HS HWW. assert (H : forall T, StandardWidth T -> StandardWidth (promote T)).
  { intros T HT. unfold promote. destruct (bits T <? 32); [right; right; left; reflexivity | exact HT]. }
  unfold common. destruct (Bool.eqb _ _); [|destruct (signed (promote S))]; match goal with |- context [if ?b then _ else _] => destruct b end; auto.
Qed.
Lemma WeightedSum_snoc h x w : WeightedSum (h ++ [(x, w)]) = WeightedSum h + x * w.
Proof. unfold WeightedSum. rewrite map_app. cbn [map fst snd]. apply Sum_snoc. Qed.

Section Weighted.
Variables S W : itype.
Hypothesis HS : StandardWidth S.
Hypothesis HWW : StandardWidth W.
Let C := common S W.
Let HC : StandardWidth C := common_width S W HS HWW.
Let Hpos : 1 <= bits C := width_pos C HC.

Lemma common_rep z : signed S = signed W -> Representable S z \/ Representable W z -> Representable C z.
Proof.
  intros Hs H. clear HC Hpos. unfold C. revert HS HWW. unfold StandardWidth.
  destruct S as [b1 s1], W as [b2 s2]; cbn [bits signed] in *. subst s2.
  intros [->|[->|[->| ->]]] [->|[->|[->| ->]]]; destruct s1;
    match goal with |- Representable ?c z => let v := eval vm_compute in c in change c with v end;
    unfold Representable in *; cbn [bits signed] in *; pows; lia.
Qed.

Lemma weighted_exact h : signed S = signed W ->
  Forall (fun p => Representable S (fst p) /\ Representable W (snd p)) h ->
  Forall (fun p => Representable C (fst p * snd p)) h ->
  AtEveryPrefix (fun p => Representable C (WeightedSum p)) h ->
  int_weighted_sum_run S W h = Ok (WeightedSum h).
Proof.
  intros Hs. induction h as [|[x w] h IH] using rev_ind; intros HF HQ HP; [reflexivity|].
  apply prefix_snoc in HP as [HP Hl]. apply Forall_app in HF as [HF Hx]. apply Forall_app in HQ as [HQ Hq].
  assert (Hx' := Forall_inv Hx). assert (Hq' := Forall_inv Hq). cbn [fst snd] in *.
  unfold int_weighted_sum_run in *. rewrite fold_left_app, (IH HF HQ HP). cbn [fold_left obnd fst snd].
  unfold int_weighted_sum_op. unfold arith at 1. fold C.
  rewrite !conv_id by (try exact Hpos; try exact Hq'; apply common_rep; tauto).
  assert (E : (if signed C then if fits C (x * w) then Ok (x * w) else UB else Ok (x * w)) = Ok (x * w)).
  { rewrite (proj2 (fits_iff C _) Hq'). now destruct (signed C). }
  rewrite E. cbn [obnd]. rewrite WeightedSum_snoc in *. apply store_exact; auto.
  destruct h as [|y h] using rev_ind; [apply rep_small; exact HC | apply prefix_snoc in HP; tauto].
Qed.
Lemma weighted_wraps h : signed C = false ->
  Forall (fun p => Representable S (fst p) /\ Representable W (snd p)) h ->
  exists r, int_weighted_sum_run S W h = Ok r /\ WrapsTo C (WeightedSum h) r.
Proof.
  intros Hs HF. exists (conv C (WeightedSum h)). split; [|now apply conv_wraps].
  induction h as [|[x w] h IH] using rev_ind; [cbn; fold C; now rewrite conv_id by (auto; apply rep_small; exact HC)|].
  apply Forall_app in HF as [HF _].
  unfold int_weighted_sum_run in *. rewrite fold_left_app, (IH HF). cbn [fold_left obnd fst snd].
  unfold int_weighted_sum_op. unfold arith at 1. fold C. rewrite Hs. cbn [obnd].
  rewrite store_wraps; auto using conv_rep; [| |now left].
  - rewrite conv_mul, conv_mul_r, conv_add, conv_add_r by exact Hpos. now rewrite WeightedSum_snoc.
  - intros Hb. exfalso. assert (P := common_promoted S W). fold C in P. unfold promote in P.
    destruct (Z.ltb_spec (bits C) 32); [|lia]. rewrite <- P in Hb. cbn in Hb. lia.
Qed.
End Weighted.

(** ** Examples and counterexamples *)
(** two samples of an 8-bit type whose sum does not fit *)
Lemma ex_mean_wrong : exists m, Forall (Representable UChar) [200; 100] /\ int_mean_run UChar QcN [200; 100] = Ok m
  /\ m <> Mean QcN (map (of_Z QcN) [200; 100]) /\ int_immediate_mean_run QcN [200; 100] = Mean QcN (map (of_Z QcN) [200; 100]).
Proof.
  destruct (mean_lazy_wrapping QcN QcN_ordered UChar ltac:(left; reflexivity) [200; 100]) as (m & E & H);
    [now left | repeat constructor; cbn; lia | discriminate|].
  exists m. split; [repeat constructor; cbn; lia|]. split; [exact E|]. split.
  - rewrite H. cbn. lia.
  - apply (immediate_exact QcN QcN_ordered). discriminate.
Qed.
(** equal samples: the lazy variance is negative, the default variance is zero *)
Lemma ex_variance_negative : exists v, Forall (Representable UChar) [20; 20]
  /\ int_lazy_variance_run UChar QcN [20; 20] = Ok v /\ (v < 0)%Qc
  /\ int_variance_run QcN [20; 20] = 0%Qc.
Proof.
  eexists. split; [repeat constructor; cbn; lia|]. split; [vm_compute; reflexivity|]. split; [reflexivity|].
  apply Qc_is_canon. vm_compute. reflexivity.
Qed.
(** the total fits, a running total does not *)
Lemma ex_sum_overflow : Forall (Representable Int) [2147483647; 1; -1] /\ Representable Int (Sum [2147483647; 1; -1])
  /\ int_sum_run Int [2147483647; 1; -1] = UB.
Proof. split; [repeat constructor; cbn; lia|]. split; [cbn; lia | vm_compute; reflexivity]. Qed.
(** unsigned short: the product of two samples overflows the int it is computed in *)
Lemma ex_moment_ushort : Forall (Representable UShort) [65535] /\ int_moment_sum UShort 2 [65535] = UB.
Proof. split; [repeat constructor; cbn; lia | vm_compute; reflexivity]. Qed.
Lemma ex_moment_short : Forall (Representable Short) [300] /\ int_moment_sum Short 2 [300] = Ok 24464 /\ SumOfPowers 2 [300] = 90000.
Proof. split; [repeat constructor; cbn; lia|]. split; vm_compute; reflexivity. Qed.
(** every window sum fits, the sum of the samples that stay when one leaves does not *)
Lemma ex_rolling_overflow : let xs := [-5; 2147483647; 1; -5] in Forall (Representable Int) xs
  /\ AtEveryPrefix (fun p => Representable Int (Sum (LastN 3 p))) xs /\ int_rolling_sum_run Int 3 xs = UB.
Proof.
  cbv zeta. split; [repeat constructor; cbn; lia|]. split; [|vm_compute; reflexivity].
  change [-5; 2147483647; 1; -5] with ((((([] ++ [-5]) ++ [2147483647]) ++ [1]) ++ [-5])).
  rewrite !prefix_snoc. repeat first [apply prefix_nil | split]; cbn; lia.
Qed.
(** two int samples further apart than the largest int, in a window of one *)
Lemma ex_rolling_mean_overflow : let xs := [-2147483648; 2147483647] in Forall (Representable Int) xs
  /\ forall K, int_roll_run Int K 1 1 xs = UB.
Proof. cbv zeta. split; [repeat constructor; cbn; lia | intros K; lazy; reflexivity]. Qed.
(** an int pushed into a set of double *)
Lemma ex_fed : Representable Int 65536 /\ forall K, fed_moment_run Int K 2 [65536] = UB /\ fed_lazy_variance_run Int K [65536] = UB.
Proof. split; [cbn; lia|]. intros K. split; lazy; reflexivity. Qed.
(** a negative sample with an unsigned weight *)
Lemma ex_weighted_mixed : Representable Int (-1) /\ Representable UInt 1
  /\ int_weighted_sum_run Int UInt [(-1, 1)] = Ok 4294967295 /\ WeightedSum [(-1, 1)] = -1.
Proof. split; [cbn; lia|]. split; [cbn; lia|]. split; vm_compute; reflexivity. Qed.
(** a case of each exactness theorem *)
Lemma ex_exact : let xs := [-3; 40000; 12; -40000; 7] in StandardWidth Int /\ Forall (Representable Int) xs
  /\ AtEveryPrefix (fun p => Representable Int (Sum p)) xs /\ int_sum_run Int xs = Ok 16
  /\ MomentFits Int 2 [-3; 40000; 12] /\ int_moment_sum Int 2 [-3; 40000; 12] = Ok 1600000153
  /\ RollingFits Int 2 xs /\ (exists b, int_rolling_sum_run Int 2 xs = Ok (b, -39993)) /\ ApartFit Int 2 xs.
Proof.
  cbv zeta. split; [right; right; left; reflexivity|]. split; [repeat constructor; cbn; lia|].
  split; [change [-3; 40000; 12; -40000; 7] with (((((([] ++ [-3]) ++ [40000]) ++ [12]) ++ [-40000]) ++ [7]));
          rewrite !prefix_snoc; repeat first [apply prefix_nil | split]; cbn; lia|].
  split; [vm_compute; reflexivity|]. split.
  { split; [repeat constructor; cbn; lia|]. change [-3; 40000; 12] with (((([] ++ [-3]) ++ [40000]) ++ [12])).
    rewrite !prefix_snoc. repeat first [apply prefix_nil | split]; cbn; lia. }
  split; [vm_compute; reflexivity|]. split.
  { unfold RollingFits. change [-3; 40000; 12; -40000; 7] with (((((([] ++ [-3]) ++ [40000]) ++ [12]) ++ [-40000]) ++ [7])).
    rewrite !prefix_snoc. repeat first [apply prefix_nil | split]; cbn; lia. }
  split; [eexists; vm_compute; reflexivity|].
  intros p y m x q E HN.
  assert (B : forall z, In z [-3; 40000; 12; -40000; 7] -> -40000 <= z <= 40000) by (cbn; intros z; intuition lia).
  assert (Hy : In y [-3; 40000; 12; -40000; 7]) by (rewrite E, in_app_iff; cbn; tauto).
  assert (Hx : In x [-3; 40000; 12; -40000; 7]) by (rewrite E, in_app_iff; cbn; rewrite in_app_iff; cbn; tauto).
  apply B in Hy. apply B in Hx. unfold Representable. cbn. lia.
Qed.
