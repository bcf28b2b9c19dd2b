(** Proofs about rolling windows. *)
From Coq Require Import List Arith Bool Field Lia.
From Verif Require Import Num NumFacts ModelBasic SpecStats ProofBasic ProofBasic2 ModelRolling SpecRolling.
Import ListNotations.

(** ** The window *)
Lemma LastN_length {A} N (xs : list A) : length (LastN N xs) = Nat.min (length xs) N.
Proof. unfold LastN. rewrite skipn_length. lia. Qed.
Lemma LastN_snoc_plus {A} N (xs : list A) x : LastN (N + 1) (xs ++ [x]) = LastN N xs ++ [x].
Proof.
  unfold LastN. rewrite app_length. cbn [length].
  replace (length xs + 1 - (N + 1)) with (length xs - N) by lia.
  rewrite skipn_app. replace (length xs - N - length xs) with 0 by lia. reflexivity.
Qed.
Lemma skipn_skipn' {A} a b (l : list A) : skipn a (skipn b l) = skipn (a + b) l.
Proof. revert l; induction b as [|b IH]; intros l; [rewrite Nat.add_0_r; reflexivity|].
  rewrite Nat.add_succ_r. destruct l; cbn [skipn]; [destruct a; reflexivity | apply IH]. Qed.

Lemma window_of_buf {A} N (xs : list A) : rolling_window_result N (LastN (N + 1) xs) = LastN N xs.
Proof.
  unfold rolling_window_result, rwp1_full, cb_full. rewrite LastN_length. unfold LastN.
  destruct (Nat.eqb_spec (Nat.min (length xs) (N + 1)) (N + 1)) as [E|E].
  - rewrite skipn_skipn'. f_equal. lia.
  - f_equal. lia.
Qed.
Lemma count_of_buf {A} N (xs : list A) : rolling_count_result N (LastN (N + 1) xs) = Nat.min (length xs) N.
Proof.
  unfold rolling_count_result, rwp1_full, cb_full. rewrite LastN_length.
  destruct (Nat.eqb_spec (Nat.min (length xs) (N + 1)) (N + 1)) as [E|E]; lia.
Qed.
Lemma buf_push {A} N (xs : list A) x : rwp1_op N (LastN (N + 1) xs) x = LastN (N + 1) (xs ++ [x]).
Proof.
  rewrite LastN_snoc_plus. unfold rwp1_op, cb_push. rewrite LastN_length.
  destruct (Nat.eqb_spec (Nat.min (length xs) (N + 1)) (N + 1)) as [E|E].
  - destruct (LastN (N + 1) xs) as [|y t] eqn:EL.
    + assert (H := LastN_length (N + 1) xs). rewrite EL in H. cbn in H. lia.
    + assert (H : rolling_window_result N (LastN (N + 1) xs) = LastN N xs) by apply window_of_buf.
      unfold rolling_window_result, rwp1_full, cb_full in H. rewrite LastN_length in H.
      rewrite (proj2 (Nat.eqb_eq _ _) E) in H. rewrite EL in H. cbn [skipn] in H. rewrite H. reflexivity.
  - f_equal. unfold LastN. f_equal. lia.
Qed.

(** Either the window grows, or it loses its first element. *)
Lemma window_step {A} N (xs : list A) x :
  let w := LastN N xs in let w' := LastN N (xs ++ [x]) in let buf := LastN (N + 1) (xs ++ [x]) in
  buf = w ++ [x] /\
  ((rwp1_full N buf = true /\ length w = N /\ length w' = N /\ exists y, buf = y :: w')
   \/ (rwp1_full N buf = false /\ w' = w ++ [x] /\ length w < N)).
Proof.
  cbv zeta. split; [apply LastN_snoc_plus|].
  assert (Hw := window_of_buf N (xs ++ [x])).
  unfold rolling_window_result, rwp1_full, cb_full in *.
  rewrite !LastN_length in *. rewrite app_length in *. cbn [length] in *.
  destruct (Nat.eqb_spec (Nat.min (length xs + 1) (N + 1)) (N + 1)) as [E|E].
  - left. split; [reflexivity|]. split; [lia|]. split; [lia|].
    destruct (LastN (N + 1) (xs ++ [x])) as [|y t] eqn:EL.
    + assert (H := LastN_length (N + 1) (xs ++ [x])). rewrite EL in H. cbn in H.
      rewrite app_length in H. cbn in H. lia.
    + cbn [skipn] in Hw. exists y. rewrite Hw. reflexivity.
  - right. split; [reflexivity|]. split; [rewrite <- Hw; apply LastN_snoc_plus | lia].
Qed.

Section Ord.
Variable K : Num.
Hypothesis HO : OrderedLaws K.
Let HK : FieldLaws K := ord_field K HO.
Local Notation T := (car K).
Local Notation "0" := (zero K) : num_scope.
Local Notation "1" := (one K) : num_scope.
Local Notation "x + y" := (add K x y) : num_scope.
Local Notation "x - y" := (sub K x y) : num_scope.
Local Notation "x * y" := (mul K x y) : num_scope.
Local Notation "x / y" := (div K x y) : num_scope.
Local Notation "# n" := (ofnat K n) (at level 2) : num_scope.
Local Open Scope num_scope.
Add Field KfieldR : (fl_field K HK).

(** order facts *)
Lemma sq_nonneg x : ltb K (x * x) 0 = false.
Proof.
  destruct (ltb K (x * x) 0) eqn:E; [exfalso|reflexivity].
  destruct (ltb K 0 x) eqn:E1.
  - assert (H := ord_mul K HO _ _ E1 E1). assert (C := ord_trans K HO _ _ _ H E).
    rewrite (ord_irrefl K HO) in C. discriminate.
  - destruct (ltb K x 0) eqn:E2.
    + assert (H := ord_add K HO _ _ (0 - x) E2).
      replace (x + (0 - x)) with 0 in H by ring. replace (0 + (0 - x)) with (0 - x) in H by ring.
      assert (H' := ord_mul K HO _ _ H H). replace ((0 - x) * (0 - x)) with (x * x) in H' by ring.
      assert (C := ord_trans K HO _ _ _ H' E). rewrite (ord_irrefl K HO) in C. discriminate.
    + rewrite (ord_total K HO _ _ E1 E2) in E at 1.
      rewrite <- (ord_total K HO _ _ E1 E2) in E.
      replace (0 * 0) with 0 in E by ring. rewrite (ord_irrefl K HO) in E. discriminate.
Qed.
Lemma add_nonneg x y : ltb K x 0 = false -> ltb K y 0 = false -> ltb K (x + y) 0 = false.
Proof.
  intros Hx Hy. destruct (ltb K (x + y) 0) eqn:E; [exfalso|reflexivity].
  destruct (ltb K 0 x) eqn:E1.
  - assert (H := ord_add K HO _ _ y E1). replace (0 + y) with y in H by ring.
    rewrite (ord_trans K HO _ _ _ H E) in Hy. discriminate.
  - rewrite <- (ord_total K HO _ _ E1 Hx) in E. replace (0 + y) with y in E by ring. congruence.
Qed.
Lemma SS_nonneg xs : ltb K (SS K xs) 0 = false.
Proof.
  unfold SS. generalize (Mean K xs) as m. intros m. induction xs as [|x xs IH].
  - rewrite total_nil. apply (ord_irrefl K HO).
  - rewrite total_cons. apply add_nonneg; [|exact IH]. cbn [power].
    replace ((x - m) * ((x - m) * 1)) with ((x - m) * (x - m)) by ring. apply sq_nonneg.
Qed.

(** ** algebra of one step *)
Lemma total_step (f : T -> T) N xs x :
  let w := LastN N xs in let w' := LastN N (xs ++ [x]) in let buf := LastN (N + 1) (xs ++ [x]) in
  total K f w' = if rwp1_full N buf then
                   match buf with [] => 0 | y :: _ => (total K f w - f y) + f x end
                 else total K f w + f x.
Proof.
  cbv zeta. destruct (window_step N xs x) as (EB & [(HF & Hl & Hl' & y & Ey) | (HF & Ew & Hl)]); cbv zeta in *.
  - rewrite HF, Ey. assert (E : total K f (LastN N xs ++ [x]) = total K f (y :: LastN N (xs ++ [x])))
      by (rewrite <- EB, Ey; reflexivity).
    rewrite (total_snoc K HK), total_cons in E.
    replace (total K f (LastN N xs) - f y + f x) with ((total K f (LastN N xs) + f x) - f y) by ring.
    rewrite E. ring.
  - rewrite HF, Ew, (total_snoc K HK). reflexivity.
Qed.

Lemma rolling_sum_step N xs x S s0 :
  S = s0 + total K (fun x : T => x) (LastN N xs) ->
  rolling_sum_op K N (LastN (N + 1) (xs ++ [x])) S x
  = Some (s0 + total K (fun x : T => x) (LastN N (xs ++ [x]))).
Proof.
  intros ->. rewrite total_step. unfold rolling_sum_op.
  destruct (window_step N xs x) as (EB & [(HF & Hl & Hl' & y & Ey) | (HF & Ew & Hl)]); cbv zeta in *.
  - rewrite HF, Ey. f_equal. ring.
  - rewrite HF. f_equal. ring.
Qed.

Lemma rolling_moment_step M N xs x S s0 : (1 <= M)%nat ->
  S = s0 + total K (fun x : T => power K x M) (LastN N xs) ->
  rolling_moment_op K M N (LastN (N + 1) (xs ++ [x])) S x
  = Some (s0 + total K (fun x : T => power K x M) (LastN N (xs ++ [x]))).
Proof.
  intros HM ->. rewrite total_step. unfold rolling_moment_op.
  destruct (window_step N xs x) as (EB & [(HF & Hl & Hl' & y & Ey) | (HF & Ew & Hl)]); cbv zeta in *.
  - rewrite HF, Ey, !(npow_spec K HK) by exact HM. f_equal. ring.
  - rewrite HF, !(npow_spec K HK) by exact HM. f_equal. ring.
Qed.

(** moving [mean] towards the target, whatever the comparison branch *)
Lemma branch_mean mean a b c :
  (if ltb K b a then mean - (a - b) / c else if ltb K a b then mean + (b - a) / c else mean)
  = mean + (b - a) * inv K c.
Proof.
  assert (Hd : forall p, p / c = p * inv K c) by (intros; apply (Fdiv_def (fl_field K HK))).
  destruct (ltb K b a) eqn:E1; [rewrite Hd; ring|].
  destruct (ltb K a b) eqn:E2; [rewrite Hd; ring|].
  rewrite (ord_total K HO _ _ E1 E2). ring.
Qed.

(** The invariant of the immediate mean. *)
Lemma rolling_mean_step N xs x mean :
  (LastN N xs <> [] -> mean = Mean K (LastN N xs)) ->
  exists mean', immediate_rolling_mean_op K N (LastN (N + 1) (xs ++ [x])) mean x = Some mean'
    /\ (LastN N (xs ++ [x]) <> [] -> mean' = Mean K (LastN N (xs ++ [x]))).
Proof.
  intros Hm. unfold immediate_rolling_mean_op.
  assert (HT := total_step (fun x : T => x) N xs x). cbv zeta in HT.
  rewrite count_of_buf.
  destruct (window_step N xs x) as (EB & [(HF & Hl & Hl' & y & Ey) | (HF & Ew & Hl)]); cbv zeta in *.
  - rewrite HF in *. rewrite Ey in *. rewrite branch_mean. eexists; split; [reflexivity|].
    intros Hne.
    assert (HN : N <> 0%nat) by (intros ->; apply Hne; destruct (LastN 0 (xs ++ [x])); [reflexivity | discriminate]).
    assert (HN' : #N <> 0) by (destruct N; [congruence | apply (ofnat_S_neq0 K HK)]).
    rewrite Hm by (intros C; rewrite C in Hl; cbn in Hl; congruence).
    unfold Mean, average. rewrite Hl, Hl', HT.
    replace (Nat.min (length (xs ++ [x])) N) with N.
    2:{ rewrite <- (LastN_length N (xs ++ [x])). symmetry. exact Hl'. }
    field. exact HN'.
  - rewrite HF in *. rewrite branch_mean. eexists; split; [reflexivity|]. intros _.
    assert (HC : Nat.min (length (xs ++ [x])) N = S (length (LastN N xs))).
    { rewrite <- (LastN_length N (xs ++ [x])). rewrite Ew, app_length. cbn. lia. }
    rewrite HC. rewrite Ew. set (w := LastN N xs) in *. unfold Mean, average.
    rewrite (total_snoc K HK), app_length. cbn [length]. rewrite Nat.add_1_r.
    assert (HS := ofnat_S_neq0 K HK (length w)).
    destruct w as [|z w0] eqn:Ew0.
    + rewrite total_nil. cbn [length] in *. field_simplify_eq; [|exact HS].
      cbn [ofnat] in *. ring.
    + rewrite Hm by discriminate. unfold Mean, average. rewrite <- Ew0 in *.
      assert (Hn : #(length w) <> 0) by (rewrite Ew0; apply (ofnat_S_neq0 K HK)).
      cbn [ofnat] in *. field. split; assumption.
Qed.

Lemma SS_snoc w x m m' : (w <> [] -> m = Mean K w) -> m' = Mean K (w ++ [x]) ->
  SS K (w ++ [x]) = SS K w + (x - m') * (x - m).
Proof.
  intros Hm Hm'. destruct w as [|z w0] eqn:Ew.
  - cbn [app] in *. unfold SS. rewrite total_one by exact HK. rewrite total_nil. rewrite <- Hm'.
    assert (E : m' = x).
    { rewrite Hm'. unfold Mean, average. rewrite (total_one K HK). cbn [length ofnat].
      field. exact (one_neq0 K HK). }
    rewrite E. cbn [power]. ring.
  - specialize (Hm ltac:(discriminate)). rewrite <- Ew in *.
    assert (Hw : w <> []) by (rewrite Ew; discriminate).
    rewrite (SS_raw K HK (w ++ [x])) by (rewrite Ew; discriminate). rewrite (SS_raw K HK w Hw).
    rewrite Hm', Hm. unfold Mean, average. rewrite !(total_snoc K HK), app_length. cbn [length].
    rewrite Nat.add_1_r. assert (Hn := length_neq0 K HK w Hw).
    assert (HS := ofnat_S_neq0 K HK (length w)). cbn [ofnat] in *. field. split; assumption.
Qed.

Lemma SS_slide w w' x y m m' : w <> [] -> length w = length w' -> w ++ [x] = y :: w' ->
  m = Mean K w -> m' = Mean K w' ->
  SS K w' = (SS K w + (x - m') * (x - m)) - (y - m') * (y - m).
Proof.
  intros Hw Hl E -> ->.
  assert (Hw' : w' <> []) by (intros ->; destruct w; [congruence | discriminate]).
  assert (E1 : total K (fun x : T => x) w + x = y + total K (fun x : T => x) w').
  { rewrite <- (total_snoc K HK (fun x : T => x)), E. rewrite total_cons. reflexivity. }
  assert (E2 : total K (fun x => x * x) w + x * x = y * y + total K (fun x => x * x) w').
  { rewrite <- (total_snoc K HK (fun x => x * x)), E. rewrite total_cons. reflexivity. }
  rewrite (SS_raw K HK w Hw), (SS_raw K HK w' Hw'). unfold Mean, average. rewrite <- Hl.
  assert (Hn := length_neq0 K HK w Hw).
  replace (total K (fun x : T => x) w') with (total K (fun x : T => x) w + x - y) by (rewrite E1; ring).
  replace (total K (fun x => x * x) w') with (total K (fun x => x * x) w + x * x - y * y) by (rewrite E2; ring).
  field. exact Hn.
Qed.

Lemma nonneg_clamp x : ltb K x 0 = false -> prevent_underflow K x = x.
Proof. intros H. unfold prevent_underflow. rewrite H. reflexivity. Qed.

(** ** The run *)
Record roll_inv (N M : nat) (s0 : T) (xs : list T) (s : roll K) : Prop := {
  ri_buf : ro_buf K s = LastN (N + 1) xs;
  ri_sum : ro_sum K s = s0 + total K (fun x : T => x) (LastN N xs);
  ri_mom : ro_mom K s = s0 + total K (fun x : T => power K x M) (LastN N xs);
  ri_mom2 : ro_mom2 K s = s0 + total K (fun x : T => power K x 2) (LastN N xs);
  ri_mean : LastN N xs <> [] -> ro_mean K s = Mean K (LastN N xs);
  ri_prev : LastN N xs <> [] -> fst (ro_var K s) = ro_mean K s;
  ri_ss : s0 = 0 -> snd (ro_var K s) = SS K (LastN N xs)
}.

Lemma roll_run_inv N M s0 xs : (1 <= M)%nat ->
  exists s, roll_run K N M s0 xs = Some s /\ roll_inv N M s0 xs s.
Proof.
  intros HM. induction xs as [|x xs (s & Er & I)] using rev_ind.
  - eexists; split; [reflexivity|]. constructor; cbn; try reflexivity; try congruence.
    + unfold rolling_sum_init. ring.
    + unfold rolling_moment_init. ring.
    + unfold rolling_moment_init. ring.
    + intros ->. rewrite (Fdiv_def (fl_field K HK)). unfold SS. cbn. ring.
  - assert (Hrun : roll_run K N M s0 (xs ++ [x]) = roll_push K N M (Some s) x).
    { unfold roll_run in *. rewrite fold_left_app, Er. reflexivity. }
    destruct I as [Ibuf Isum Imom Imom2 Imean Iprev Iss].
    destruct (rolling_mean_step N xs x (ro_mean K s) Imean) as (mean' & Em & Hm').
    unfold roll_push in Hrun. rewrite Ibuf, buf_push in Hrun.
    rewrite (rolling_sum_step N xs x _ s0 Isum) in Hrun.
    rewrite (rolling_moment_step M N xs x _ s0 HM Imom) in Hrun.
    rewrite (rolling_moment_step 2 N xs x _ s0 (le_S _ _ (le_n 1)) Imom2) in Hrun.
    rewrite Em in Hrun.
    assert (HV : exists var, rolling_variance_op K N (LastN (N + 1) (xs ++ [x])) (ro_var K s) mean' x = Some var
      /\ fst var = mean' /\ (s0 = 0 -> snd var = SS K (LastN N (xs ++ [x])))).
    { unfold rolling_variance_op. destruct (ro_var K s) as [prev ss]. cbn [fst snd] in *.
      destruct (window_step N xs x) as (EB & [(HF & Hl & Hl' & y & Ey) | (HF & Ew & Hl)]); cbv zeta in *.
      - rewrite HF, Ey. eexists; split; [reflexivity|]. cbn [fst snd]. split; [reflexivity|]. intros Hs0.
        specialize (Iss Hs0).
        destruct N as [|N'].
        + (* window size 0 *)
          destruct (LastN 0 xs) as [|? ?] eqn:EL; [|discriminate].
          destruct (LastN 0 (xs ++ [x])) as [|? ?] eqn:EL'; [|discriminate].
          rewrite EB in Ey. cbn in Ey. injection Ey as <-.
          replace (ss + (x - mean') * (x - prev) - (x - mean') * (x - prev)) with ss by ring.
          rewrite Iss. apply nonneg_clamp. apply SS_nonneg.
        + assert (Hw : LastN (S N') xs <> []) by (intros C; rewrite C in Hl; discriminate).
          assert (Hw' : LastN (S N') (xs ++ [x]) <> []) by (intros C; rewrite C in Hl'; discriminate).
          assert (E := SS_slide (LastN (S N') xs) (LastN (S N') (xs ++ [x])) x y prev mean' Hw).
          rewrite Iss, <- E.
          * apply nonneg_clamp. apply SS_nonneg.
          * congruence.
          * rewrite <- EB, Ey. reflexivity.
          * rewrite Iprev by exact Hw. apply Imean. exact Hw.
          * apply Hm'. exact Hw'.
      - rewrite HF. eexists; split; [reflexivity|]. cbn [fst snd]. split; [reflexivity|]. intros Hs0.
        rewrite Ew. symmetry. rewrite (Iss Hs0). apply SS_snoc.
        + intros Hw. rewrite Iprev by exact Hw. apply Imean. exact Hw.
        + rewrite <- Ew. apply Hm'. rewrite Ew. destruct (LastN N xs); discriminate. }
    destruct HV as (var & EV & Hv1 & Hv2). rewrite EV in Hrun.
    eexists; split; [exact Hrun|]. constructor; cbn; auto.
Qed.

(** ** Consequences *)
Lemma roll_total N M s0 xs : (1 <= M)%nat -> exists s, roll_run K N M s0 xs = Some s.
Proof. intros HM. destruct (roll_run_inv N M s0 xs HM) as (s & E & _). eauto. Qed.

Lemma roll_window_spec N M s0 xs s : (1 <= M)%nat -> roll_run K N M s0 xs = Some s ->
  ro_window K N s = LastN N xs /\ ro_count K N s = Nat.min (length xs) N.
Proof.
  intros HM E. destruct (roll_run_inv N M s0 xs HM) as (s' & E' & I).
  rewrite E in E'. injection E' as <-. destruct I as [Ibuf _ _ _ _ _ _].
  unfold ro_window, ro_count. rewrite Ibuf. split; [apply window_of_buf | apply count_of_buf].
Qed.

Lemma LastN_nonempty {A} N (xs : list A) : (1 <= N)%nat -> xs <> [] -> LastN N xs <> [].
Proof.
  intros HN Hx C. assert (H := LastN_length N xs). rewrite C in H. cbn [length] in H.
  destruct xs; [congruence|]. cbn [length] in H. lia.
Qed.

Lemma roll_sum_spec N M s0 xs s : (1 <= M)%nat -> roll_run K N M s0 xs = Some s ->
  ro_sum K s = s0 + total K (fun x : T => x) (LastN N xs).
Proof.
  intros HM E. destruct (roll_run_inv N M s0 xs HM) as (s' & E' & I).
  rewrite E in E'. injection E' as <-. apply (ri_sum _ _ _ _ _ I).
Qed.

Lemma roll_means_spec N M xs s : (1 <= M)%nat -> (1 <= N)%nat -> xs <> [] ->
  roll_run K N M 0 xs = Some s ->
  ro_lazy_mean K N s = Mean K (LastN N xs) /\ ro_mean K s = Mean K (LastN N xs)
  /\ ro_moment K N s = Moment K M (LastN N xs).
Proof.
  intros HM HN Hx E. destruct (roll_run_inv N M 0 xs HM) as (s' & E' & I).
  rewrite E in E'. injection E' as <-.
  assert (Hw := LastN_nonempty N xs HN Hx).
  assert (Hc : ro_count K N s = length (LastN N xs)).
  { unfold ro_count. rewrite (ri_buf _ _ _ _ _ I), count_of_buf, LastN_length. reflexivity. }
  repeat split.
  - unfold ro_lazy_mean, lazy_rolling_mean_result. rewrite Hc, (ri_sum _ _ _ _ _ I).
    unfold Mean, average. f_equal. ring.
  - apply (ri_mean _ _ _ _ _ I). exact Hw.
  - unfold ro_moment, rolling_moment_result. rewrite Hc, (ri_mom _ _ _ _ _ I).
    unfold Moment, average. f_equal. ring.
Qed.

Lemma roll_mean_unbiased N M s0 xs s : (1 <= M)%nat -> (1 <= N)%nat -> xs <> [] ->
  roll_run K N M s0 xs = Some s -> ro_mean K s = Mean K (LastN N xs).
Proof.
  intros HM HN Hx E. destruct (roll_run_inv N M s0 xs HM) as (s' & E' & I).
  rewrite E in E'. injection E' as <-. apply (ri_mean _ _ _ _ _ I). apply LastN_nonempty; assumption.
Qed.

Lemma lazy_form w n : w <> [] -> n = length w -> (2 <= n)%nat ->
  #n * (Moment K 2 w - Mean K w * Mean K w) / #(n - 1) = SampleVariance K w.
Proof.
  intros Hw -> Hn. rewrite <- (avg_sub_raw2 K HK w Hw). rewrite (Variance_SS K w).
  unfold SampleVariance. fold (SS K w).
  assert (H1 := length_neq0 K HK w Hw).
  assert (H2 : #(length w - 1) <> 0).
  { destruct (length w) as [|[|n]]; try lia. replace (S (S n) - 1)%nat with (S n) by lia.
    apply (ofnat_S_neq0 K HK). }
  field. split; assumption.
Qed.

Lemma roll_variance_spec N M xs s : (1 <= M)%nat -> roll_run K N M 0 xs = Some s ->
  let k := Nat.min (length xs) N in
  let v := if Nat.ltb k 2 then 0 else SampleVariance K (LastN N xs) in
  ro_variance K N s = v /\ ro_lazy_variance K N s = v /\ ro_lazy_variance_lazy_mean K N s = v.
Proof.
  intros HM E k v. destruct (roll_run_inv N M 0 xs HM) as (s' & E' & I).
  rewrite E in E'. injection E' as <-.
  assert (Hc : ro_count K N s = k).
  { unfold ro_count. rewrite (ri_buf _ _ _ _ _ I), count_of_buf. reflexivity. }
  unfold ro_variance, ro_lazy_variance, ro_lazy_variance_lazy_mean, rolling_variance_result,
    lazy_rolling_variance_result. rewrite Hc. unfold v.
  destruct (Nat.ltb_spec k 2) as [Hk|Hk]; [repeat split|].
  assert (HN : (1 <= N)%nat) by lia.
  assert (Hx : xs <> []) by (intros ->; cbn in k; lia).
  assert (Hw := LastN_nonempty N xs HN Hx).
  assert (Hl : k = length (LastN N xs)) by (rewrite LastN_length; reflexivity).
  assert (Hmean := ri_mean _ _ _ _ _ I Hw).
  assert (Hlazy : ro_lazy_mean K N s = Mean K (LastN N xs)) by exact (proj1 (roll_means_spec N M xs s HM HN Hx E)).
  assert (Hm2 : rolling_moment_result K (ro_mom2 K s) k = Moment K 2 (LastN N xs)).
  { unfold rolling_moment_result, Moment, average. rewrite (ri_mom2 _ _ _ _ _ I), <- Hl. f_equal. ring. }
  rewrite Hmean, Hlazy, Hm2. repeat split.
  - rewrite (ri_ss _ _ _ _ _ I eq_refl). unfold SampleVariance. rewrite <- Hl. reflexivity.
  - apply lazy_form; assumption.
  - apply lazy_form; assumption.
Qed.
End Ord.
