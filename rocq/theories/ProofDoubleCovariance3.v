(** The accuracy of covariances of doubles: the statements for the property file. *)
From Coq Require Import ZArith List Bool Reals Lra Lia Arith Psatz Permutation.
From Flocq Require Import Core IEEE754.BinarySingleNaN.
From Verif Require Import Num NumFacts ModelBasic ModelRounding ModelDouble SpecStats SpecDouble SpecDoubleVariance ProofBasic ProofBasic2 ProofKahan ProofDouble ProofDouble2 ProofDouble3 ProofDoubleEx ProofDoubleVariance ProofDoubleVariance2 ProofDoubleVariance3 ProofDoubleVariance4 ProofDoubleCovariance ProofDoubleCovariance2.
Import ListNotations.
Local Open Scope R_scope.

Lemma covariance_accurate a b h : Few h -> Moderate a -> Moderate b -> h <> [] -> Within a (map fst h) -> Within b (map snd h) ->
  finite (cs_cov DoubleN (cov_set_run DoubleN d_zero d_zero h)) /\
  Rabs (val (cs_cov DoubleN (cov_set_run DoubleN d_zero d_zero h)) - ExactCovariance h) <= 256 * INR (length h) * roundoff * (a * b).
Proof.
  intros L MA MB N WA WB. destruct (moderate_pow a MA) as (i & I & I' & A1 & A2). destruct (moderate_pow b MB) as (j & J & J' & B1 & B2).
  destruct (cov_close i j h L I ltac:(lia) J ltac:(lia) N (within_le _ _ _ A1 WA) (within_le _ _ _ B1 WB)) as [[F _] C].
  split; [exact F |]. eapply Rle_trans; [exact C |].
  assert (S : bpow radix2 i * bpow radix2 j <= 2 * a * (2 * b)) by (apply Rmult_le_compat; try assumption; apply bpow_ge_0).
  assert (Hu := roundoff_small). assert (0 <= INR (length h) * roundoff) by (apply Rmult_le_pos; [apply pos_INR | lra]).
  set (c := INR (length h) * roundoff) in *. set (s := bpow radix2 i * bpow radix2 j) in *.
  replace (64 * INR (length h) * roundoff * s) with (64 * (c * s)) by (unfold c; ring). replace (256 * INR (length h) * roundoff * (a * b)) with (64 * (c * (2 * a * (2 * b)))) by (unfold c; ring).
  apply Rmult_le_compat_l; [lra |]. apply Rmult_le_compat_l; assumption.
Qed.
Lemma exact_covariance_perm g h : Permutation g h -> ExactCovariance g = ExactCovariance h.
Proof. intros P. apply (Covariance_perm RN RN_field). apply Permutation_map. exact P. Qed.
Lemma exact_covariance_swap h : ExactCovariance (map (fun p => (snd p, fst p)) h) = ExactCovariance h.
Proof.
  unfold ExactCovariance. refine (eq_trans _ (Covariance_swap RN RN_field _)). rewrite !map_map. reflexivity.
Qed.
Lemma covariance_orders a b g h : Permutation g h -> Few g -> Moderate a -> Moderate b -> g <> [] -> Within a (map fst g) -> Within b (map snd g) ->
  Rabs (val (cs_cov DoubleN (cov_set_run DoubleN d_zero d_zero g)) - val (cs_cov DoubleN (cov_set_run DoubleN d_zero d_zero h))) <= 512 * INR (length g) * roundoff * (a * b) /\
  Rabs (val (cs_cov DoubleN (cov_set_run DoubleN d_zero d_zero g)) - val (cs_cov DoubleN (cov_set_run DoubleN d_zero d_zero (map (fun p => (snd p, fst p)) h)))) <= 512 * INR (length g) * roundoff * (a * b).
Proof.
  intros P L MA MB N WA WB. assert (E := exact_covariance_perm _ _ P). assert (Ln := Permutation_length P).
  assert (L' : Few h) by (unfold Few; rewrite <- Ln; exact L). assert (N' : h <> []) by (intros ->; destruct g; [congruence | discriminate]).
  assert (WA' := within_perm a _ _ (Permutation_map fst P) WA). assert (WB' := within_perm b _ _ (Permutation_map snd P) WB).
  destruct (covariance_accurate a b g L MA MB N WA WB) as [_ A]. destruct (covariance_accurate a b h L' MA MB N' WA' WB') as [_ A'].
  set (h' := map (fun p => (snd p, fst p)) h). assert (Lh : length h' = length h) by apply map_length.
  destruct (covariance_accurate b a h') as [_ A''].
  { unfold Few. rewrite Lh. exact L'. } { exact MB. } { exact MA. } { destruct h; [congruence | discriminate]. }
  { unfold h'. rewrite map_map. exact WB'. } { unfold h'. rewrite map_map. exact WA'. }
  assert (E' : ExactCovariance h' = ExactCovariance h) by apply exact_covariance_swap.
  rewrite Lh, E', (Rmult_comm b a), <- E, <- Ln in A''. rewrite <- E, <- Ln in A'.
  apply Rabs_le_inv in A. apply Rabs_le_inv in A'. apply Rabs_le_inv in A''. split; apply Rabs_le; lra.
Qed.
Lemma three_pairs_ok : let h := [(big1, tenth); (big2, big1); (tenth, tenth)] in Few h /\ Moderate (2 ^ 28) /\ Within (2 ^ 28) (map fst h) /\ Within (2 ^ 28) (map snd h).
Proof.
  destruct three_ok as (_ & M & W). cbv zeta. split; [unfold Few; cbn; lia |]. split; [exact M |]. split; [exact W |].
  unfold Within in *. inversion W as [|? ? H1 W1]; subst. inversion W1 as [|? ? H2 W2]; subst. inversion W2 as [|? ? H3 _]; subst. apply Forall_cons; [exact H3 | apply Forall_cons; [exact H1 | apply Forall_cons; [exact H3 | apply Forall_nil]]].
Qed.
