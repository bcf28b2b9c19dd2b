(** The accuracy of the right coherent tail mean of doubles. *)
From Coq Require Import ZArith List Bool Reals Lra Lia Arith Permutation Sorted.
From Flocq Require Import Core IEEE754.BinarySingleNaN.
From Verif Require Import Num ModelBasic ModelTail ModelDouble ModelDoubleTail SpecStats SpecTail SpecDouble SpecDoubleVariance SpecDoubleTail SpecDoubleMoment ProofTailTop ProofDouble ProofDouble2 ProofDouble5 ProofDoubleEx ProofDoubleVariance ProofDoubleVariance2 ProofDoubleTail ProofDoubleMoment ProofDoubleRolling4 ProofDoubleTailMean ProofDoubleShape.
Import ListNotations.
Local Open Scope R_scope.

Lemma app_quotient k h : (-200 <= k <= 200)%Z -> roundoff <= h <= / 8192 -> forall j x n, (j <= 4)%nat -> finite x -> (1 <= n)%nat -> (Z.of_nat n <= 2 ^ 53)%Z ->
  Rabs (val x / INR n) <= up k j -> App k h j (d_div x (ofnat DoubleN n)) (val x / INR n) 1 (1001 / 1000).
Proof.
  intros K Hh j x n J F N N' B. destruct (ofnat_exact n N') as [Fn Vn]. assert (P := up_pos k j). assert (U := roundoff_small).
  assert (N0 : INR n <> 0) by (apply not_0_INR; lia).
  destruct (app_round k K h Hh j (val x / INR n) (val x / INR n) 1 0 (1001 / 1000) J) as [L R]; [lra | lra | lra | rewrite Rminus_diag_eq, Rabs_R0 by reflexivity; lra | lra |].
  destruct (div_ok x (ofnat DoubleN n)) as [F' V']; [rewrite Vn; exact N0 | exact F | rewrite Vn; exact L |].
  split; [exact F' |]. split; [lra |]. unfold val at 1. rewrite V', Vn. exact R.
Qed.
Lemma app_exact k h j x : Rabs (val x) <= up k j -> finite x -> App k h j x (val x) 1 0.
Proof. intros B F. split; [exact F |]. split; [lra |]. rewrite Rminus_diag_eq, Rabs_R0 by reflexivity. lra. Qed.
Lemma up_zero k : up k 0 = 1.
Proof. unfold up. replace (k * Z.of_nat 0)%Z with 0%Z by lia. reflexivity. Qed.
Lemma up_one k : up k 1 = powerRZ 2 k.
Proof. unfold up. replace (k * Z.of_nat 1)%Z with k by lia. apply (bpow_powerRZ radix2). Qed.
Lemma mean_bound b xs : xs <> [] -> Within b xs -> Rabs (ExactMean xs) <= b.
Proof.
  intros NE W.
  assert (L : 0 < INR (length xs)) by (apply lt_0_INR; destruct xs; [congruence | cbn; lia]).
  unfold ExactMean. unfold Rdiv. rewrite Rabs_mult, (Rabs_pos_eq (/ _)) by (apply Rlt_le, Rinv_0_lt_compat; exact L).
  apply Rmult_le_reg_r with (INR (length xs)); [exact L |]. rewrite Rmult_assoc, Rinv_l, Rmult_1_r by lra.
  rewrite (Rmult_comm b). exact (exact_bound b xs W).
Qed.
Section Formula.
  Variables (k : Z) (r n : nat) (p q : double) (a : list double).
  Hypotheses (K : (-200 <= k <= 200)%Z) (R1 : (1 <= r <= n)%nat) (N : (Z.of_nat n <= 2 ^ 40)%Z) (P : Probability p)
    (Q : finite q /\ Rabs (val q) <= powerRZ 2 k) (W : Within (powerRZ 2 k) a) (A : length a = r).
  Lemma coherent_close : let v := d_add (lazy_mean a) (d_mul (d_div q (ofnat DoubleN r)) (d_sub (d_sub d_one p) (d_div (ofnat DoubleN r) (ofnat DoubleN n)))) in
    finite v /\ Rabs (val v - (ExactMean a + val q / INR r * (1 - val p - INR r / INR n))) <= 14 * INR r * roundoff * powerRZ 2 k.
  Proof.
    intros v. assert (U := roundoff_small). assert (r1 : 1 <= INR r) by (change 1 with (INR 1); apply le_INR; lia). assert (rn : INR r <= INR n) by (apply le_INR; lia).
    assert (Np : (Z.of_nat n <= 2 ^ 53)%Z) by (change (2 ^ 53)%Z with 9007199254740992%Z; change (2 ^ 40)%Z with 1099511627776%Z in N; lia).
    assert (rB : INR r <= 2 ^ 40) by (rewrite INR_IZR_INZ, pow_IZR; apply IZR_le; change (Z.of_nat 40) with 40%Z; lia).
    assert (Hh : roundoff <= INR r * roundoff <= / 8192).
    { split; [rewrite <- (Rmult_1_l roundoff) at 1; apply Rmult_le_compat_r; lra |].
      apply Rle_trans with (2 ^ 40 * roundoff); [apply Rmult_le_compat_r; lra |]. unfold roundoff. replace 53%nat with (40 + 13)%nat by reflexivity. rewrite pow_add.
      assert (2 ^ 40 <> 0) by (apply pow_nonzero; lra). assert (2 ^ 13 <> 0) by (apply pow_nonzero; lra). replace 8192 with (2 ^ 13) by (cbn; lra). right; field; try split; assumption. }
    set (h := INR r * roundoff) in *. destruct P as [Fp [p0 p1]]. destruct Q as [Fq Bq]. rewrite <- up_one in Bq.
    assert (NEa : a <> []) by (intros ->; cbn in A; lia).
    assert (AM : App k h 1 (lazy_mean a) (ExactMean a) 1 4).
    { destruct (mean_near k a) as [F E]; [unfold Few; rewrite A; lia | exact NEa | lia | exact W |]. split; [exact F |].
      split; [rewrite Rmult_1_l, up_one; exact (mean_bound _ _ NEa W) |]. eapply Rle_trans; [exact E |]. rewrite A, up_one. unfold h.
      assert (0 < powerRZ 2 k) by (rewrite <- up_one; apply up_pos). assert (0 <= roundoff * powerRZ 2 k) by nra.
      replace (4 * (INR r * roundoff * powerRZ 2 k)) with (2 * (INR r + INR r) * (roundoff * powerRZ 2 k)) by ring. rewrite Rmult_assoc. apply Rmult_le_compat_r; lra. }
    assert (AQ : App k h 1 (d_div q (ofnat DoubleN r)) (val q / INR r) 1 (1001 / 1000)).
    { apply app_quotient; [exact K | exact Hh | lia | exact Fq | lia | lia |]. unfold Rdiv. rewrite Rabs_mult, (Rabs_pos_eq (/ _)) by (apply Rlt_le, Rinv_0_lt_compat; lra).
      rewrite <- (Rmult_1_r (up k 1)). apply Rmult_le_compat; [apply Rabs_pos | apply Rlt_le, Rinv_0_lt_compat; lra | exact Bq | rewrite <- Rinv_1; apply Rinv_le; lra]. }
    assert (A1 : App k h 0 d_one 1 1 0) by (destruct (ofnat_exact 1 ltac:(lia)) as [_ _]; apply (app_nat k h 1); lia).
    assert (AP : App k h 0 p (val p) 1 0) by (apply app_exact; [rewrite up_zero, Rabs_pos_eq; lra | exact Fp]).
    assert (AS := app_sub k K h Hh 0 _ _ _ _ 1 1 0 0 (2002 / 1000) A1 AP ltac:(lia) ltac:(lra) ltac:(lra) ltac:(lra) ltac:(lra) ltac:(lra)).
    apply (app_weaken k h _ _ _ _ _ 1) in AS; [| rewrite up_zero, Rabs_pos_eq; lra].
    destruct (ofnat_exact r ltac:(lia)) as [Fr Vr].
    assert (Q0 : 0 < INR r / INR n <= 1).
    { split; [apply Rdiv_lt_0_compat; lra |]. apply Rmult_le_reg_r with (INR n); [lra |]. unfold Rdiv. rewrite Rmult_assoc, Rinv_l; lra. }
    assert (AR : App k h 0 (d_div (ofnat DoubleN r) (ofnat DoubleN n)) (INR r / INR n) 1 (1001 / 1000)).
    { replace (INR r) with (val (ofnat DoubleN r)) by exact Vr. apply app_quotient; [exact K | exact Hh | lia | exact Fr | lia | exact Np |].
      replace (val (ofnat DoubleN r)) with (INR r) by (symmetry; exact Vr). rewrite up_zero, Rabs_pos_eq; lra. }
    assert (AD := app_sub k K h Hh 0 _ _ _ _ 1 1 (2002 / 1000) (1001 / 1000) (5010 / 1000) AS AR ltac:(lia) ltac:(lra) ltac:(lra) ltac:(lra) ltac:(lra) ltac:(lra)).
    apply (app_weaken k h _ _ _ _ _ 1) in AD; [| rewrite up_zero; apply Rabs_le; lra].
    assert (AX := app_mul k K h Hh 1 0 _ _ _ _ 1 1 (1001 / 1000) (5010 / 1000) (6020 / 1000) (7030 / 1000) AQ AD ltac:(lia) ltac:(lra) ltac:(lra) ltac:(lra) ltac:(lra) ltac:(lra) ltac:(lra) ltac:(lra) ltac:(lra)).
    change (1 + 0)%nat with 1%nat in AX.
    destruct (app_add k K h Hh 1 _ _ _ _ 1 (1 * 1) 4 (7030 / 1000) 14 AM AX ltac:(lia) ltac:(lra) ltac:(lra) ltac:(lra) ltac:(lra) ltac:(lra)) as (F & _ & E).
    split; [exact F |]. eapply Rle_trans; [exact E |]. rewrite up_one. unfold h. right. ring.
  Qed.
End Formula.
Lemma first_extreme lr k xs t r : IsTail (MoreExtreme DoubleN lr) k xs t -> (r <= length t)%nat -> MostExtreme (MoreExtreme DoubleN lr) xs r (firstn r t).
Proof.
  intros (_ & HS & rest & HP & HB) Hr.
  split; [rewrite firstn_length; lia|]. exists (skipn r t ++ rest). split; [rewrite app_assoc, firstn_skipn; exact HP|].
  intros x y Hx Hy. apply in_app_or in Hy as [Hy|Hy]; [|apply HB; [|exact Hy]; rewrite <- (firstn_skipn r t); apply in_or_app; left; exact Hx].
  unfold SortedBy in HS. rewrite <- (firstn_skipn r t) in HS. clear - HS Hx Hy.
  induction (firstn r t) as [|a l IH]; [destruct Hx|]. cbn in HS. apply StronglySorted_inv in HS as [S1 S2].
  destruct Hx as [->|Hx]; [|exact (IH S1 Hx)]. rewrite Forall_forall in S2. apply S2, in_or_app. right; exact Hy.
Qed.
Lemma coherent_accurate (H : HeapOps) : HeapContract H -> forall (c : nat) (dA : double) (dV : unit) (ops : list (tail_op double unit)) (k : Z),
  (0 < c)%nat -> WellFormed 0 ops -> ~ nan dA -> let xs := map fst (pushes ops) in Few xs -> (-200 <= k <= 200)%Z -> Within (powerRZ 2 k) xs ->
  exists s tl, tail_run H (tail_pred DoubleN Right) (tail_init c 0 dA dV) ops = Ok s /\ tail_result H (tail_pred DoubleN Right) s = Ok tl /\
  forall p, Probability p -> xs <> [] ->
  exists r, (1 <= r <= length xs)%nat /\
    (forall R, ExactRank Right (length xs) p R -> (R <= r + 1)%nat /\ (r <= R + 1)%nat) /\
    ((r < Nat.min c (length xs))%nat -> exists a q v, MostExtreme (MoreExtreme DoubleN Right) xs r a /\ OrderStat (MoreExtreme DoubleN Right) xs r q /\
       coherent_tail_mean_result DoubleN d_ceil Right (length xs) tl p = Ok v /\ finite v /\
       Rabs (val v - (ExactMean a + val q / INR r * (1 - val p - INR r / INR (length xs)))) <= 14 * INR r * roundoff * powerRZ 2 k) /\
    ((Nat.min c (length xs) <= r)%nat -> coherent_tail_mean_result DoubleN d_ceil Right (length xs) tl p = NotANumber).
Proof.
  intros HC c dA dV ops k Hc WF Hd xs L K W.
  assert (NU : Numbers xs) by (eapply Forall_impl; [| exact W]; intros x [F _]; exact (finite_number x F)).
  destruct (double_tail H HC unit Right c 0 dA dV ops Hc WF Hd NU) as (s & t & E1 & E2 & HT). exists s, t. split; [exact E1 |]. split; [exact E2 |].
  intros p P NE. fold xs in HT. assert (N1 : (1 <= length xs)%nat) by (destruct xs; [congruence | cbn; lia]).
  assert (N2 : (Z.of_nat (length xs) <= 2 ^ 40)%Z) by exact L.
  destruct (rank_spec Right (length xs) p P N1) as [HR HE]; [change (2 ^ 52)%Z with 4503599627370496%Z; change (2 ^ 40)%Z with 1099511627776%Z in N2; lia |].
  exists (d_rank Right (length xs) p). split; [exact HR |]. split; [exact HE |].
  assert (TL : length t = Nat.min c (length xs)) by apply HT.
  assert (WT : Within (powerRZ 2 k) t).
  { destruct HT as (_ & _ & rest & HP & _). apply Forall_forall. intros x I. exact (proj1 (Forall_forall _ _) W x (Permutation_in x (Permutation_sym HP) (in_or_app _ _ _ (or_introl I)))). }
  unfold coherent_tail_mean_result, coherent_tail_mean_of, tail_quantile_result, non_coherent_tail_mean_result. fold (d_rank Right (length xs) p).
  set (r := d_rank Right (length xs) p) in *. change (car DoubleN) with double in *. rewrite TL. split; intros C.
  - destruct (Nat.ltb_spec r (Nat.min c (length xs))) as [_|C']; [| lia]. destruct (Nat.leb_spec r (Nat.min c (length xs))) as [_|C']; [| lia].
    destruct (nth_error t (r - 1)) as [q|] eqn:Eq; [| apply nth_error_None in Eq; lia].
    assert (Lf : length (firstn r t) = r) by (rewrite firstn_length; lia).
    assert (Wf : Within (powerRZ 2 k) (firstn r t)) by (rewrite <- (firstn_skipn r t) in WT; exact (proj1 (proj1 (Forall_app _ _ _) WT))).
    assert (Q : finite q /\ Rabs (val q) <= powerRZ 2 k) by exact (proj1 (Forall_forall _ _) WT q (nth_error_In _ _ Eq)).
    assert (RT : (r <= length t)%nat) by lia.
    destruct (coherent_close k r (length xs) p q (firstn r t) K HR N2 P Q Wf Lf) as [F E].
    exists (firstn r t), q. eexists. split; [exact (first_extreme Right c xs t r HT RT) |]. split.
    + assert (T := tail_nth Right c xs t (r - 1) q NU HT Eq). replace (S (r - 1)) with r in T by lia. exact T.
    + split; [| split; [exact F | exact E]]. clear E F. destruct r as [|m] eqn:Er; [lia |]. rewrite <- Er in *.
      replace (r - 1)%nat with m in Eq by lia. rewrite Eq. rewrite lazy_mean_is, Lf. reflexivity.
  - destruct (Nat.ltb_spec r (Nat.min c (length xs))) as [C'|_]; [lia |]. destruct (r <=? Nat.min c (length xs))%nat; [| reflexivity]. destruct r; reflexivity.
Qed.
Lemma ten_coherent : let xs := map fst (pushes ten) in WellFormed 0 ten /\ Few xs /\ xs <> [] /\ Within (powerRZ 2 4) xs /\ Probability tenth /\ length xs = 10%nat /\ d_rank Right 10 tenth = 9%nat.
Proof.
  cbv zeta. destruct ten_within as (F & N & W). destruct ten_ok as (_ & WF & _). destruct rank_off as (P & _).
  split; [exact WF |]. split; [exact F |]. split; [exact N |]. split; [exact W |]. split; [exact P |]. split; [reflexivity | vm_compute; reflexivity].
Qed.
