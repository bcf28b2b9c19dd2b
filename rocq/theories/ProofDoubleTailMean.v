(** The accuracy of tail means of doubles. *)
From Coq Require Import ZArith List Bool Reals Lra Lia Arith Permutation.
From Flocq Require Import Core IEEE754.BinarySingleNaN.
From Verif Require Import Num ModelBasic ModelTail ModelDouble ModelDoubleTail SpecStats SpecTail SpecDouble SpecDoubleVariance SpecDoubleTail SpecDoubleMoment ProofTailTop ProofDouble ProofDouble2 ProofDoubleEx ProofDoubleTail ProofDoubleMoment ProofDoubleRolling4.
Import ListNotations.
Local Open Scope R_scope.

Lemma finite_number x : finite x -> ~ nan x.
Proof. unfold finite, nan. destruct x; cbn; congruence. Qed.
Lemma mean_near k xs : Few xs -> xs <> [] -> (-900 <= k <= 900)%Z -> Within (powerRZ 2 k) xs ->
  finite (lazy_mean xs) /\ Rabs (val (lazy_mean xs) - ExactMean xs) <= 2 * (INR (length xs) + 1) * roundoff * powerRZ 2 k.
Proof.
  intros L NE K W. destruct (moment_accurate 1 k xs (le_n _) L NE ltac:(lia) W) as (v & Ev & Fv & _ & Av).
  rewrite first_moment in Ev. injection Ev as <-. rewrite exact_first in Av. replace (k * Z.of_nat 1)%Z with k in Av by lia. change (INR 1) with 1 in Av. split; assumption.
Qed.
Lemma tail_mean_accurate (H : HeapOps) : HeapContract H -> forall (lr : side) (c : nat) (dA : double) (dV : unit) (ops : list (tail_op double unit)) (k : Z),
  (0 < c)%nat -> WellFormed 0 ops -> ~ nan dA -> let xs := map fst (pushes ops) in Few xs -> (-900 <= k <= 900)%Z -> Within (powerRZ 2 k) xs ->
  exists s tl, tail_run H (tail_pred DoubleN lr) (tail_init c 0 dA dV) ops = Ok s /\ tail_result H (tail_pred DoubleN lr) s = Ok tl /\
  forall p, Probability p -> xs <> [] ->
  exists r, (1 <= r <= length xs)%nat /\
    (forall R, ExactRank lr (length xs) p R -> (R <= r + 1)%nat /\ (r <= R + match lr with Left => 0 | Right => 1 end)%nat) /\
    ((r <= Nat.min c (length xs))%nat -> exists a v, MostExtreme (MoreExtreme DoubleN lr) xs r a /\
       non_coherent_tail_mean_result DoubleN d_ceil lr (length xs) tl p = Ok v /\ finite v /\
       Rabs (val v - ExactMean a) <= 2 * (INR r + 1) * roundoff * powerRZ 2 k).
Proof.
  intros HC lr c dA dV ops k Hc WF Hd xs L K W.
  assert (NU : Numbers xs) by (eapply Forall_impl; [| exact W]; intros x [F _]; exact (finite_number x F)).
  destruct (double_quantile H HC lr c dA dV ops Hc WF Hd NU) as (s & tl & E1 & E2 & G). exists s, tl. split; [exact E1 |]. split; [exact E2 |].
  intros p P NE. cbv zeta in G. fold xs in G. destruct (G p P NE) as (r & R1 & R2 & _ & _ & M & _); [unfold Few in L; change (2 ^ 52)%Z with 4503599627370496%Z; change (2 ^ 40)%Z with 1099511627776%Z in L; lia |].
  exists r. split; [exact R1 |]. split; [exact R2 |]. intros C. destruct (M C) as (a & Ma & Ea). exists a, (lazy_mean a). split; [exact Ma |]. split; [exact Ea |].
  destruct Ma as [La (b & Pb & _)]. change (car DoubleN) with double in *.
  assert (Wa : Within (powerRZ 2 k) a) by (apply Forall_forall; intros x I; exact (proj1 (Forall_forall _ _) W x (Permutation_in x (Permutation_sym Pb) (in_or_app _ _ _ (or_introl I))))).
  rewrite <- La. apply mean_near; [unfold Few in *; rewrite La; lia | intros ->; cbn in La; lia | exact K | exact Wa].
Qed.
Definition up_to_16 (x : double) : bool := match shown_double x with Some (m, e) => Z.leb (Z.abs m) (2 ^ 53) && Z.leb e (-49) | None => false end.
Lemma up_to_16_ok x : up_to_16 x = true -> finite x /\ Rabs (val x) <= powerRZ 2 4.
Proof.
  unfold up_to_16. destruct (shown_double x) as [[m e]|] eqn:S; [| discriminate]. intros H. apply andb_true_iff in H as [H1 H2]. apply Z.leb_le in H1. apply Z.leb_le in H2.
  destruct (shown_value x m e S) as [F V]. split; [exact F |]. rewrite V, Rabs_mult, (Rabs_pos_eq (bpow radix2 e)) by apply bpow_ge_0. rewrite <- (bpow_powerRZ radix2).
  change 4%Z with (53 + -49)%Z. rewrite bpow_plus. apply Rmult_le_compat; [apply Rabs_pos | apply bpow_ge_0 | | apply bpow_le; exact H2].
  rewrite <- abs_IZR. change (bpow radix2 53) with (IZR (2 ^ 53)). apply IZR_le. exact H1.
Qed.
Lemma ten_within : let xs := map fst (pushes ten) in Few xs /\ xs <> [] /\ Within (powerRZ 2 4) xs.
Proof.
  cbv zeta. split; [vm_compute; discriminate |]. split; [discriminate |].
  assert (A : forallb up_to_16 (map fst (pushes ten)) = true) by (vm_compute; reflexivity).
  apply Forall_forall. intros x I. apply up_to_16_ok. exact (proj1 (forallb_forall _ _) A x I).
Qed.
