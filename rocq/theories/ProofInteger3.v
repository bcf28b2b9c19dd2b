(** The statements behind C52. *)
From Coq Require Import List ZArith Bool Lia Field QArith Qcanon.
From Verif Require Import Num NumFacts ModelPSquare ModelMinMax ModelBasic ModelRolling ModelNumeric ModelInteger
  SpecStats SpecInteger SpecRolling ProofBasic ProofBasic2 ProofRolling ProofInteger ProofInteger2.
Import ListNotations.
Open Scope Z_scope.

Notation Wide T := (signed T = true /\ 32 <= bits T).

(** ** sum *)
Lemma sum_wrapping T xs : StandardWidth T -> signed T = false \/ bits T < 32 -> Forall (Representable T) xs ->
  exists r, int_sum_run T xs = Ok r /\ WrapsTo T (Sum xs) r /\ (r = Sum xs <-> Representable T (Sum xs)).
Proof.
  intros HW Hw HF. exists (conv T (Sum xs)). split; [now apply sum_wraps|].
  assert (H := conv_wraps T (Sum xs) (width_pos T HW)). split; [exact H|]. split; intros E.
  - rewrite <- E. apply H.
  - apply conv_id; [now apply width_pos | exact E].
Qed.
Lemma sum_wide T xs : StandardWidth T -> Wide T -> Forall (Representable T) xs ->
  (AtEveryPrefix (fun p => Representable T (Sum p)) xs -> int_sum_run T xs = Ok (Sum xs))
  /\ (~ AtEveryPrefix (fun p => Representable T (Sum p)) xs -> int_sum_run T xs = UB).
Proof. intros HW Hw HF. split; [now apply sum_exact | now apply sum_overflow]. Qed.

(** ** moment *)
Lemma moment_wrapping T n xs : StandardWidth T ->
  (signed T = false /\ 32 <= bits T) \/ (signed T = true /\ bits T = 16) \/ bits T = 8 ->
  (1 <= n)%nat -> Forall (Representable T) xs ->
  exists r, int_moment_sum T n xs = Ok r /\ WrapsTo T (SumOfPowers n xs) r.
Proof.
  intros HW HC Hn HF. exists (conv T (SumOfPowers n xs)). split; [now apply moment_wraps|].
  apply conv_wraps. now apply width_pos.
Qed.

(** ** rolling sum *)
Lemma rolling_sum_wrapping T : StandardWidth T -> forall N xs,
  signed T = false \/ bits T < 32 -> Forall (Representable T) xs ->
  exists b r, int_rolling_sum_run T N xs = Ok (b, r) /\ WrapsTo T (Sum (LastN N xs)) r.
Proof.
  intros HW N xs Hw HF. rewrite rolling_sum_wraps by assumption. do 2 eexists. split; [reflexivity|].
  apply conv_wraps. now apply width_pos.
Qed.
Lemma rolling_sum_signed T : StandardWidth T -> forall N xs, Wide T -> (1 <= N)%nat -> Forall (Representable T) xs ->
  (RollingFits T N xs -> exists b, int_rolling_sum_run T N xs = Ok (b, Sum (LastN N xs)))
  /\ (~ RollingFits T N xs -> int_rolling_sum_run T N xs = UB).
Proof.
  intros HW N xs Hw HN HF. split; [|now apply rolling_sum_overflow].
  intros HR. eexists. now apply rolling_sum_exact.
Qed.

Section Float.
Variable K : Num.
Hypothesis HO : OrderedLaws K.
Let HK : FieldLaws K := ord_field K HO.
Add Field KfieldJ : (fl_field K HK).
Variable T : itype.
Hypothesis HW : StandardWidth T.
Notation Rep := (Representable T).
Notation floats := (map (of_Z K)).

Lemma mean_lazy_wrapping xs : signed T = false \/ bits T < 32 -> Forall Rep xs -> xs <> [] ->
  exists m, int_mean_run T K xs = Ok m /\ (m = Mean K (floats xs) <-> Rep (Sum xs)).
Proof.
  intros Hw HF Hne. destruct (sum_wrapping T xs HW Hw HF) as (r & E & _ & Hr).
  unfold int_mean_run. rewrite E. cbn [obnd]. eexists. split; [reflexivity|].
  rewrite (fdiv_Mean_iff K HK) by exact Hne. exact Hr.
Qed.
Lemma mean_lazy_exact xs : Forall Rep xs -> AtEveryPrefix (fun p => Rep (Sum p)) xs ->
  int_mean_run T K xs = Ok (Mean K (floats xs)).
Proof.
  intros HF HP. unfold int_mean_run. rewrite sum_exact by assumption. cbn [obnd]. f_equal. now apply (fdiv_Mean K HK).
Qed.
Lemma moment_float_exact n xs : (1 <= n)%nat -> Forall Rep xs -> MomentFits T n xs ->
  int_moment_run T K n xs = Ok (Moment K n (floats xs)).
Proof.
  intros Hn HF [H1 H2]. unfold int_moment_run. rewrite moment_exact by assumption. cbn [obnd]. f_equal.
  now apply (fdiv_Moment K HK).
Qed.
Lemma immediate_exact xs : xs <> [] ->
  int_immediate_mean_run K xs = Mean K (floats xs) /\ int_variance_run K xs = Variance K (floats xs).
Proof.
  intros Hne. assert (Hm : floats xs <> []) by (destruct xs; [contradiction | discriminate]).
  split; [exact (imean_run_spec K HK _ _ Hm) | exact (var_run_spec K HK _ Hm)].
Qed.
Lemma lazy_variance_exact xs : xs <> [] -> Forall Rep xs -> MomentFits T 2 xs -> AtEveryPrefix (fun p => Rep (Sum p)) xs ->
  int_lazy_variance_run T K xs = Ok (Variance K (floats xs)).
Proof.
  intros Hne HF HM HP. unfold int_lazy_variance_run.
  rewrite moment_float_exact by (auto; lia). cbn [obnd]. rewrite mean_lazy_exact by assumption. cbn [obnd].
  assert (Hm : floats xs <> []) by (destruct xs; [contradiction | discriminate]).
  f_equal. unfold lazy_variance_result. now rewrite (avg_sub_raw2 K HK _ Hm).
Qed.

(** ** integers fed to a set whose Sample is floating *)
Lemma fed_moment_exact n xs : (1 <= n)%nat -> Forall Rep xs -> Forall (fun x => Rep (x ^ Z.of_nat n)) xs ->
  fed_moment_run T K n xs = Ok (Moment K n (floats xs)).
Proof.
  intros Hn HF HQ. unfold fed_moment_run.
  assert (E : fed_moment_sum T K n xs = Ok (total K (fun x => power K x n) (floats xs))).
  { induction xs as [|x xs IH] using rev_ind; [reflexivity|].
    apply Forall_app in HF as [HF Hx]. apply Forall_app in HQ as [HQ Hq].
    unfold fed_moment_sum in *. rewrite fold_left_app, (IH HF HQ). cbn [fold_left obnd].
    rewrite pow_exact by (first [exact HW | assumption | exact (Forall_inv Hx) | exact (Forall_inv Hq)]). cbn [obnd]. rewrite map_app. cbn [map].
    now rewrite (total_snoc K HK), (of_Z_pow K HK). }
  rewrite E. cbn [obnd]. unfold moment_result, Moment, average. now rewrite map_length.
Qed.
Lemma fed_moment_overflow n xs : Wide T -> (1 <= n)%nat -> Forall Rep xs ->
  ~ Forall (fun x => Rep (x ^ Z.of_nat n)) xs -> fed_moment_run T K n xs = UB.
Proof.
  intros Hw Hn HF HQ. unfold fed_moment_run.
  assert (E : fed_moment_sum T K n xs = UB); [|now rewrite E].
  induction xs as [|x xs IH] using rev_ind; [exfalso; apply HQ; constructor|].
  apply Forall_app in HF as [HF Hx]. rewrite Forall_app in HQ.
  unfold fed_moment_sum in *. rewrite fold_left_app. cbn [fold_left].
  destruct (Forall_dec _ (fun x => fits_dec T (x ^ Z.of_nat n)) xs) as [D|D]; [|now rewrite (IH HF D)].
  destruct (fits_dec T (x ^ Z.of_nat n)) as [D2|D2]; [exfalso; apply HQ; split; [exact D | now repeat constructor]|].
  match goal with |- obnd ?o _ = _ => destruct o eqn:Eo end; cbn [obnd]; try reflexivity.
  - now rewrite (pow_overflow T HW) by (first [exact HW | assumption | exact (Forall_inv Hx)]).
  - exfalso. clear - Eo HW HF D Hn. revert Eo. generalize (zero K).
    induction xs as [|y xs IH]; intros z; cbn [fold_left]; [discriminate|]. cbn [obnd].
    rewrite (pow_exact T HW) by (first [exact HW | assumption | exact (Forall_inv HF) | exact (Forall_inv D)]). cbn [obnd].
    apply IH; [exact (Forall_inv_tail HF) | exact (Forall_inv_tail D)].
Qed.
Lemma fed_variance_exact xs : xs <> [] -> Forall Rep xs -> Forall (fun x => Rep (x ^ 2)) xs ->
  fed_lazy_variance_run T K xs = Ok (Variance K (floats xs)).
Proof.
  intros Hne HF HQ. unfold fed_lazy_variance_run. rewrite fed_moment_exact by (auto; lia). cbn [obnd].
  assert (Hm : floats xs <> []) by (destruct xs; [contradiction | discriminate]).
  rewrite (mean_set_spec K HK). f_equal. unfold lazy_variance_result. now rewrite (avg_sub_raw2 K HK _ Hm).
Qed.

(** ** rolling mean, moment and variance *)
Lemma slides_snoc N xs x : ApartFit (promote T) N (xs ++ [x]) -> ApartFit (promote T) N xs.
Proof.
  intros H p y m z q E HN. apply (H p y m z (q ++ [x])); [|exact HN]. rewrite E.
  now rewrite <- !app_assoc; cbn [app]; rewrite <- !app_assoc.
Qed.
Lemma slides_head N xs x y : ApartFit (promote T) N (xs ++ [x]) -> (1 <= N)%nat -> LastN (N + 1) (xs ++ [x]) = y :: LastN N (xs ++ [x]) ->
  length (LastN N (xs ++ [x])) = N -> Representable (promote T) (Z.abs (x - y)).
Proof.
  intros H HN E HL. destruct (LastN N (xs ++ [x])) as [|a l] using rev_ind; [cbn in HL; lia|]. clear IHl.
  assert (Ea : a = x).
  { assert (E' := LastN_snoc_plus (N - 1) xs x). replace (N - 1 + 1)%nat with N in E' by lia.
    assert (Hlast : last (LastN (N + 1) (xs ++ [x])) 0 = x) by (rewrite LastN_snoc_plus; apply last_last).
    rewrite E in Hlast. change (y :: l ++ [a]) with ((y :: l) ++ [a]) in Hlast. rewrite last_last in Hlast. exact Hlast. }
  subst a. apply (H (firstn (length (xs ++ [x]) - (N + 1)) (xs ++ [x])) y l x []).
  - rewrite <- (firstn_skipn (length (xs ++ [x]) - (N + 1)) (xs ++ [x])) at 1. f_equal. exact E.
  - rewrite app_length in HL. cbn in HL. lia.
Qed.

Lemma rwp1_full_map {A B} (f : A -> B) N l : rwp1_full N (map f l) = rwp1_full N l.
Proof. unfold rwp1_full, cb_full. now rewrite map_length. Qed.
Lemma rolling_count_map {A B} (f : A -> B) N l : rolling_count_result N (map f l) = rolling_count_result N l.
Proof. unfold rolling_count_result. now rewrite rwp1_full_map, map_length. Qed.
Lemma LastN_map {A B} (f : A -> B) N l : LastN N (map f l) = map f (LastN N l).
Proof. unfold LastN. now rewrite map_length, skipn_map. Qed.

Lemma int_rolling_mean_sim N xs x mean : (1 <= N)%nat -> Forall Rep xs -> Rep x -> ApartFit (promote T) N (xs ++ [x]) ->
  forall m, immediate_rolling_mean_op K N (floats (LastN (N + 1) (xs ++ [x]))) mean (of_Z K x) = Some m ->
  int_rolling_mean_op T K N (LastN (N + 1) (xs ++ [x])) mean x = Ok m.
Proof.
  intros HN HF Hx HSl m. unfold int_rolling_mean_op.
  destruct (window_step N xs x) as (EB & [(Hfull & Hl & Hl' & y & Ey) | (Hfull & Ew & Hl)]); cbv zeta in *.
  2:{ rewrite Hfull. now intros ->. }
  assert (HS := slides_head N xs x y HSl HN Ey Hl').
  assert (Hy : Rep y).
  { assert (H : Forall Rep (y :: LastN N (xs ++ [x]))).
    { rewrite <- Ey. apply LastN_in. apply Forall_app. repeat constructor; assumption. }
    exact (Forall_inv H). }
  rewrite Ey in Hfull. rewrite Ey, Hfull. unfold immediate_rolling_mean_op.
  rewrite rwp1_full_map, rolling_count_map, Hfull. cbn [map].
  rewrite (branch_mean K HO). intros [= <-].
  set (c := rolling_count_result N (y :: LastN N (xs ++ [x]))).
  assert (Hd : forall a b, div K a b = mul K a (inv K b)) by (intros; apply (Fdiv_def (fl_field K HK))).
  destruct (Z.ltb_spec x y) as [L|L].
  - rewrite (arith_exact T) by (auto; match goal with |- Representable _ ?a => replace a with (Z.abs (x - y)) by lia end; exact HS).
    cbn [obnd]. unfold fdiv_int. rewrite (of_Z_sub K HK), (ProofNumeric.of_Z_of_nat K), Hd. f_equal. ring.
  - destruct (Z.ltb_spec y x) as [L2|L2].
    + rewrite (arith_exact T) by (auto; match goal with |- Representable _ ?a => replace a with (Z.abs (x - y)) by lia end; exact HS).
      cbn [obnd]. unfold fdiv_int. rewrite (of_Z_sub K HK), (ProofNumeric.of_Z_of_nat K), Hd. f_equal.
    + assert (x = y) by lia. subst y. f_equal. ring.
Qed.
Lemma int_rolling_moment_sim n N buf s x : (1 <= n)%nat -> Forall Rep (x :: buf) ->
  Forall (fun x => Rep (x ^ Z.of_nat n)) (x :: buf) ->
  forall m, rolling_moment_op K n N (floats buf) s (of_Z K x) = Some m -> int_rolling_moment_op T K n N buf s x = Ok m.
Proof.
  intros Hn HF HQ m. unfold rolling_moment_op, int_rolling_moment_op. rewrite rwp1_full_map.
  assert (Hx := Forall_inv HF). assert (Hq := Forall_inv HQ). assert (HF' := Forall_inv_tail HF). assert (HQ' := Forall_inv_tail HQ).
  rewrite !(npow_spec K HK) by exact Hn. rewrite (pow_exact T HW x) by auto.
  destruct (rwp1_full N buf).
  - destruct buf as [|y buf]; cbn [map]; [discriminate|]. rewrite (npow_spec K HK) by exact Hn.
    rewrite (pow_exact T HW) by (first [exact HW | assumption | exact (Forall_inv HF') | exact (Forall_inv HQ')]). cbn [obnd]. rewrite !(of_Z_pow K HK).
    now intros [= <-].
  - cbn [obnd]. rewrite (of_Z_pow K HK). now intros [= <-].
Qed.
Lemma int_roll_sim n N xs : (1 <= n)%nat -> (1 <= N)%nat -> Forall Rep xs -> Forall (fun x => Rep (x ^ Z.of_nat n)) xs ->
  ApartFit (promote T) N xs ->
  exists r s, roll_run K N n (zero K) (floats xs) = Some r /\ int_roll_run T K n N xs = Ok s /\
    ro_buf K r = floats (ir_buf K s) /\ ir_buf K s = LastN (N + 1) xs /\ ir_mom K s = ro_mom K r /\ ir_mean K s = ro_mean K r /\ ir_var K s = ro_var K r.
Proof.
  intros Hn HN. induction xs as [|x xs IH] using rev_ind; intros HF HQ HS.
  - do 2 eexists. repeat split.
  - assert (HF2 := HF). assert (HQ2 := HQ). apply Forall_app in HF as [HF Hx]. apply Forall_app in HQ as [HQ Hq].
    destruct (IH HF HQ (slides_snoc _ _ _ HS)) as (r & s & Er & Es & Eb & El & Em & Eme & Ev).
    destruct (roll_total K HO N n (zero K) (floats (xs ++ [x])) Hn) as (r' & Er').
    assert (Hstep : roll_push K N n (Some r) (of_Z K x) = Some r').
    { rewrite <- Er', map_app. unfold roll_run in *. rewrite fold_left_app, Er. reflexivity. }
    assert (Hi : int_roll_run T K n N (xs ++ [x]) = int_roll_push T K n N (Ok s) x).
    { unfold int_roll_run in *. rewrite fold_left_app, Es. reflexivity. }
    rewrite Hi, Er'. cbn [roll_push] in Hstep.
    assert (Ebuf : rwp1_op N (ro_buf K r) (of_Z K x) = floats (LastN (N + 1) (xs ++ [x]))).
    { rewrite Eb, El, <- LastN_map, buf_push, <- LastN_map, map_app. reflexivity. }
    rewrite Ebuf in Hstep. unfold int_roll_push. cbn [obnd]. rewrite El, buf_push, Em, Eme, Ev.
    destruct (rolling_sum_op K N _ _ _) as [sum|]; [|discriminate].
    destruct (rolling_moment_op K n N _ _ _) as [mom|] eqn:E1; [|discriminate].
    destruct (rolling_moment_op K 2 N _ _ _) as [mom2|]; [|discriminate].
    destruct (immediate_rolling_mean_op K N _ _ _) as [mean|] eqn:E2; [|discriminate].
    destruct (rolling_variance_op K N _ _ _ _) as [var|] eqn:E3; [|discriminate].
    injection Hstep as <-.
    rewrite (int_rolling_moment_sim n N _ _ x Hn) with (m := mom).
    4: exact E1.
    2, 3: constructor; [exact (Forall_inv Hx) || exact (Forall_inv Hq) | now apply LastN_in].
    cbn [obnd]. rewrite (int_rolling_mean_sim N xs x _ HN HF (Forall_inv Hx) HS mean E2). cbn [obnd].
    unfold int_rolling_variance_op. rewrite E3. cbn [obnd].
    do 2 eexists. split; [reflexivity|]. split; [reflexivity|]. cbn. repeat split.
Qed.
Lemma int_roll_exact n N xs : (1 <= n)%nat -> (1 <= N)%nat -> xs <> [] ->
  Forall Rep xs -> Forall (fun x => Rep (x ^ Z.of_nat n)) xs -> ApartFit (promote T) N xs ->
  exists s, int_roll_run T K n N xs = Ok s /\
    ir_mean K s = Mean K (floats (LastN N xs)) /\ ir_moment K N s = Moment K n (floats (LastN N xs)) /\
    ir_variance K N s = (if Nat.ltb (Nat.min (length xs) N) 2 then zero K else SampleVariance K (floats (LastN N xs))).
Proof.
  intros Hn HN Hne HF HQ HS. destruct (int_roll_sim n N xs Hn HN HF HQ HS) as (r & s & Er & Es & Eb & El & Em & Eme & Ev).
  exists s. split; [exact Es|].
  assert (Hm : floats xs <> []) by (destruct xs; [contradiction | discriminate]).
  destruct (roll_means_spec K HO N n (floats xs) r Hn HN Hm Er) as (_ & H1 & H2).
  destruct (roll_variance_spec K HO N n (floats xs) r Hn Er) as (H3 & _). rewrite map_length in H3.
  unfold ro_moment, ro_variance, ro_count in *. unfold ir_moment, ir_variance.
  rewrite Eb, rolling_count_map, LastN_map in *. rewrite Em, Eme, Ev. repeat split; assumption.
Qed.
Lemma slides_unsigned N xs : signed T = false \/ bits T < 32 -> Forall Rep xs -> ApartFit (promote T) N xs.
Proof.
  intros Hs HF p y m x q -> _. apply Forall_app in HF as [_ HF].
  assert (Hy := Forall_inv HF). apply Forall_inv_tail, Forall_app in HF as [_ HF]. assert (Hx := Forall_inv HF).
  clear - Hs Hx Hy HW. unfold promote. destruct (Z.ltb_spec (bits T) 32) as [L|L].
  - destruct (Z.abs_spec (x - y)) as [[_ ->]|[_ ->]]; [now apply (narrow_sub T)|].
    replace (- (x - y)) with (y - x) by lia. now apply (narrow_sub T).
  - destruct Hs as [Hs|Hs]; [|lia]. unfold Representable in *. rewrite Hs in *. lia.
Qed.
(** lazy rolling mean *)
Lemma lazy_rolling_exact N xs : (1 <= N)%nat -> Forall Rep xs -> RollingFits T N xs ->
  int_lazy_rolling_mean_run T K N xs = Ok (Mean K (floats (LastN N xs))).
Proof.
  intros HN HF HR. unfold int_lazy_rolling_mean_run. rewrite rolling_sum_exact by assumption. cbn [obnd fst snd].
  rewrite count_of_buf, <- LastN_length. f_equal. now apply (fdiv_Mean K HK).
Qed.
Lemma lazy_rolling_wrapping N xs : (1 <= N)%nat -> xs <> [] -> signed T = false \/ bits T < 32 -> Forall Rep xs ->
  exists m, int_lazy_rolling_mean_run T K N xs = Ok m /\ (m = Mean K (floats (LastN N xs)) <-> Rep (Sum (LastN N xs))).
Proof.
  intros HN Hne Hw HF. unfold int_lazy_rolling_mean_run. rewrite rolling_sum_wraps by assumption. cbn [obnd fst snd].
  rewrite count_of_buf, <- LastN_length. eexists. split; [reflexivity|].
  rewrite (fdiv_Mean_iff K HK) by now apply LastN_nonempty.
  split; intros E; [rewrite <- E; apply conv_rep | apply conv_id; [|exact E]]; now apply width_pos.
Qed.
End Float.
