(** Samples that are all equal: exact arithmetic. *)
From Coq Require Import List Arith Bool Field Lia Permutation.
From Verif Require Import Num NumFacts SpecStats SpecRolling SpecTail SpecDensity SpecPSquare SpecConstant ModelBasic ModelMinMax ModelRolling ModelPSquare ModelTail
  ProofBasic ProofBasic2 ProofBasic3 ProofRolling ProofOrder ProofBounds ProofTail ProofTailTop ProofPSquareInst.
Import ListNotations.

Section Constant.
Variable K : Num.
Hypothesis HO : OrderedLaws K.
Let HK : FieldLaws K := ord_field K HO.
Local Notation T := (car K).
Local Notation "0" := (zero K) : num_scope.
Local Notation "1" := (one K) : num_scope.
Local Notation "x + y" := (add K x y) : num_scope.
Local Notation "x - y" := (sub K x y) : num_scope.
Local Notation "x * y" := (mul K x y) : num_scope.
Local Notation "x / y" := (div K x y) : num_scope.
Local Notation "# n" := (ofnat K n) (at level 2) : num_scope.
Local Open Scope num_scope.
Add Field KFc : (fl_field K HK).

Lemma ae_min c xs : xs <> [] -> AllEqual c xs -> IsMin K xs c /\ IsMax K xs c.
Proof.
  intros N H. assert (I : In c xs). { destruct xs as [|x xs]; [congruence|]. rewrite <- (H x (or_introl eq_refl)). now left. }
  split; (split; [exact I|]); intros x Hx; rewrite (H x Hx); apply (kle_refl K HO).
Qed.
Lemma ae_is_min c xs lo : AllEqual c xs -> IsMin K xs lo -> lo = c.
Proof. intros H [I _]. now apply H. Qed.
Lemma ae_is_max c xs hi : AllEqual c xs -> IsMax K xs hi -> hi = c.
Proof. intros H [I _]. now apply H. Qed.
Lemma between_eq c r : Between K c r c -> r = c.
Proof. intros [A B]. now apply (kle_antisym K HO). Qed.
Lemma ae_mean c xs : xs <> [] -> AllEqual c xs -> Mean K xs = c.
Proof. intros N H. destruct (ae_min c xs N H) as [A B]. apply between_eq. now apply (Mean_between K HO). Qed.
Lemma ae_central k c xs : xs <> [] -> AllEqual c xs -> CentralMoment K (S k) xs = 0.
Proof.
  intros N H. unfold CentralMoment. rewrite (ae_mean c xs N H). unfold average.
  rewrite (total_ext K _ (fun _ => 0)). { rewrite (total_const K HK). field. now apply (length_neq0 K HK). }
  intros x Hx. rewrite (H x Hx). cbn [power]. ring.
Qed.

Lemma equal_exact (sqrt : T -> T) (s0 c : T) (xs : list T) : xs <> [] -> AllEqual c xs ->
  mean_set_mean K (mean_set_run K 0 xs) = c /\ im_mean K (imean_set_run K s0 xs) = c
  /\ vs_var K (var_set_run K 0 xs) = 0 /\ lazy_variance_run K 0 xs = Some 0
  /\ skewness_run K sqrt 0 xs = Some (0 / (0 * sqrt 0)) /\ kurtosis_run K 0 xs = Some (0 / (0 * 0) - #3).
Proof.
  intros N H. rewrite (mean_set_spec K HK), (imean_run_spec K HK), (var_run_spec K HK), (lazy_variance_run_spec K HK),
    (skewness_run_spec K HK), (kurtosis_run_spec K HK) by auto.
  unfold Variance. rewrite !(ae_central _ c xs N H), (ae_mean c xs N H). repeat split.
Qed.
Lemma equal_covariance (c : T) (h : list (T * T)) : h <> [] -> AllEqual c (map fst h) -> cs_cov K (cov_set_run K 0 0 h) = 0.
Proof.
  intros N H. rewrite (cov_run_spec K HK) by auto. assert (N1 : map fst h <> []) by (destruct h; [congruence|discriminate]).
  unfold Covariance. rewrite (ae_mean c (map fst h) N1 H). unfold average.
  rewrite (total_ext K _ (fun _ => 0)). { rewrite (total_const K HK). field. now apply (length_neq0 K HK). }
  intros p Hp. rewrite (H (fst p) (in_map fst h p Hp)). ring.
Qed.
Lemma equal_weighted (c : T) (h : list (T * T)) : h <> [] -> AllEqual c (map fst h) -> PrefixWeightsNonzero K h ->
  wmean_set_mean K (wmean_set_run K 0 0 h) = c /\ wv_mean K (wvar_set_run K 0 0 h) = c /\ wv_var K (wvar_set_run K 0 0 h) = 0
  /\ lazy_weighted_variance_run K 0 h = Some 0.
Proof.
  intros N H P. assert (W0 : TotalWeight K h <> 0) by (exact (PWN_self K h P N)).
  rewrite (wmean_set_spec K HK), (wvar_run_mean_spec K HK), (wvar_run_spec K HK), (lazy_weighted_variance_run_spec K HK) by auto.
  assert (M : WMean K h = c).
  { unfold WMean, waverage. rewrite (total_ext K _ (fun p => snd p * c)).
    - rewrite (total_scale_r K HK). unfold TotalWeight in *. field. exact W0.
    - intros p Hp. now rewrite (H (fst p) (in_map fst h p Hp)). }
  assert (V : WVariance K h = 0).
  { unfold WVariance, WCentralMoment. rewrite M. unfold waverage. rewrite (total_ext K _ (fun _ => 0)).
    - rewrite (total_const K HK). unfold TotalWeight in *. field. exact W0.
    - intros p Hp. rewrite (H (fst p) (in_map fst h p Hp)). cbn [power]. ring. }
  rewrite M, V. repeat split.
Qed.
Lemma equal_rolling (N M : nat) (c : T) (xs : list T) (s : roll K) : (1 <= M)%nat -> (1 <= N)%nat -> roll_run K N M 0 xs = Some s ->
  xs <> [] -> AllEqual c (LastN N xs) ->
  ro_mean K s = c /\ ro_lazy_mean K N s = c /\ ro_variance K N s = 0 /\ ro_lazy_variance K N s = 0.
Proof.
  intros HM HN Hr Nx H. assert (NL : LastN N xs <> []).
  { intros E. apply (f_equal (@length _)) in E. rewrite LastN_length in E. destruct xs; [congruence|]. cbn [length] in E. lia. }
  destruct (roll_means_spec K HO N M xs s HM HN Nx Hr) as (E1 & E2 & _).
  destruct (roll_variance_spec K HO N M xs s HM Hr) as (E3 & E4 & _). cbv zeta in E3, E4.
  rewrite E1, E2, E3, E4, (ae_mean c _ NL H). split; auto. split; auto.
  assert (V : (if Nat.ltb (Nat.min (length xs) N) 2 then 0 else SampleVariance K (LastN N xs)) = 0).
  { destruct (Nat.ltb_spec (Nat.min (length xs) N) 2) as [C|C]; auto. unfold SampleVariance. rewrite (ae_mean c _ NL H).
    rewrite (total_ext K _ (fun _ => 0)). { rewrite (total_const K HK). rewrite LastN_length. field.
      replace (Nat.min (length xs) N - 1)%nat with (S (Nat.min (length xs) N - 2)) by lia. apply (ofnat_S_neq0 K HK). }
    intros x Hx. rewrite (H x Hx). cbn [power]. ring. }
  split; exact V.
Qed.
Lemma ae_nondecreasing c (l : list T) : NonDecreasing K l -> nth_error l 0 = Some c -> nth_error l (length l - 1) = Some c -> AllEqual c l.
Proof.
  intros S A B x Hx. destruct l as [|a l]; [destruct Hx|]. cbn in A. injection A as ->.
  apply between_eq. inversion S as [|? ? S' F]; subst. split.
  - destruct Hx as [<-|Hx]; [apply (kle_refl K HO)|]. rewrite Forall_forall in F. now apply F.
  - clear F S'. assert (G : forall l, NonDecreasing K l -> forall x, In x l -> forall z, nth_error l (length l - 1) = Some z -> ltb K z x = false).
    { clear - HO. induction l as [|y l IH]; intros S x Hx z Hz; [destruct Hx|]. inversion S as [|? ? S' F]; subst.
      destruct l as [|w l].
      - cbn in Hz. injection Hz as <-. destruct Hx as [<-|[]]. apply (kle_refl K HO).
      - assert (Hz' : nth_error (w :: l) (length (w :: l) - 1) = Some z). { cbn [length] in *. rewrite Nat.sub_succ, Nat.sub_0_r in *. exact Hz. }
        destruct Hx as [<-|Hx]; [|now apply IH]. rewrite Forall_forall in F. apply F. eapply nth_error_In. exact Hz'. }
    exact (G _ S x Hx c B).
Qed.
Lemma equal_p_square (c p : T) (xs : list T) : AllEqual c xs -> (5 <= length xs)%nat ->
  exists s, pq_run K p xs = Ok s /\ pq_result K s = Ok c.
Proof.
  intros H L. destruct (pq_main K HO p xs L) as (s & r & lo & hi & E & _ & _ & _ & R & Hlo & Hhi & B).
  exists s. split; auto. rewrite R. f_equal. apply between_eq. now rewrite (ae_is_min c xs lo H Hlo), (ae_is_max c xs hi H Hhi) in B.
Qed.
Lemma equal_extended (c : T) (probs xs : list T) : AllEqual c xs -> (2 * length probs + 3 <= length xs)%nat ->
  exists s rs, ext_run K probs xs = Ok s /\ ext_result K probs s = Ok rs /\ length rs = length probs /\ AllEqual c rs.
Proof.
  intros H L. destruct (ext_main K HO probs xs L) as (s & rs & lo & hi & E & R & Lr & _ & Hlo & Hhi & F & _).
  exists s, rs. repeat split; auto. rewrite (ae_is_min c xs lo H Hlo), (ae_is_max c xs hi H Hhi), Forall_forall in F.
  intros r Hr. apply between_eq, F, Hr.
Qed.
Lemma equal_distribution (c : T) (b : nat) (xs : list T) : AllEqual c xs -> (1 <= b)%nat -> (b < length xs)%nat ->
  exists s, cd_run K b xs = Ok s /\ length (cd_pairs K s) = (b + 1)%nat /\ AllEqual c (map fst (cd_pairs K s)).
Proof.
  intros H Lb L. destruct (cd_main K HO b xs Lb L) as (s & lo & hi & E & Ln & Hlo & Hhi & A & Z & S & _).
  exists s. repeat split; auto. rewrite (ae_is_min c xs lo H Hlo) in A. rewrite (ae_is_max c xs hi H Hhi) in Z.
  apply ae_nondecreasing; auto.
  - rewrite nth_error_map, A. reflexivity.
  - rewrite map_length, Ln, Nat.add_sub, nth_error_map, Z. reflexivity.
Qed.
Lemma equal_tail (c : T) (H : HeapOps) : HeapContract H -> forall (lr : side) (ceil : T -> nat), CeilSpec K ceil ->
  forall (k : nat) (dA : T) (dV : unit) (ops : list (tail_op T unit)), (0 < k)%nat -> WellFormed 0 ops ->
  let xs := map fst (pushes ops) in AllEqual c xs ->
  exists s tl, tail_run H (tail_pred K lr) (tail_init k 0 dA dV) ops = Ok s /\ tail_result H (tail_pred K lr) s = Ok tl /\
  forall p r, Inside01 K p -> IsCeil K (#(length xs) * TailShare K lr p) r -> (r < Nat.min k (length xs))%nat ->
    tail_quantile_result K ceil lr (length xs) tl p = Ok c /\ (xs <> [] -> (0 < r)%nat -> non_coherent_tail_mean_result K ceil lr (length xs) tl p = Ok c).
Proof.
  intros HC lr ceil Hc k dA dV ops Hk W. cbv zeta. intros HE.
  destruct (quantile_run K HO H HC lr ceil Hc k dA dV ops Hk W) as (s & tl & E & R & Q).
  destruct (nctm_run K HO H HC lr ceil Hc k dA dV ops Hk W) as (s' & tl' & E' & R' & Q').
  rewrite E in E'. injection E' as <-. rewrite R in R'. injection R' as <-.
  exists s, tl. split; auto. split; auto. cbv zeta in Q, Q'. set (xs := map fst (pushes ops)) in *.
  intros p r Hp Hr L. split.
  - destruct (proj1 (Q p r Hp Hr) L) as (v & -> & a & b & P & _). f_equal. apply HE. apply (Permutation_in _ (Permutation_sym P)).
    apply in_or_app. right. now left.
  - intros N R0. destruct (proj1 (Q' p r Hp N Hr)) as (a & (La & b & P & _) & ->); [lia|]. f_equal. apply ae_mean.
    + intros ->. cbn in La. lia.
    + intros x Hx. apply HE. apply (Permutation_in _ (Permutation_sym P)). apply in_or_app. now left.
Qed.
End Constant.
