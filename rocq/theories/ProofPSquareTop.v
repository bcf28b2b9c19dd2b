(** The P-square accumulators: quantile, cumulative distribution, extended, and weighted. *)
From Coq Require Import List Arith Bool Lia Field Permutation Sorted.
From Verif Require Import Num NumFacts ModelRolling ModelDensity ModelPSquare SpecStats SpecDensity SpecTail SpecPSquare
  ProofBasic ProofOrder ProofRollingBuf ProofTail ProofPSquare ProofPSquareRun.
Import ListNotations.

Lemma ss_map_inv {A B} (f : A -> B) (R : B -> B -> Prop) l :
  StronglySorted R (map f l) -> StronglySorted (fun a b => R (f a) (f b)) l.
Proof.
  induction l as [|a l IH]; cbn; intros H; [constructor|]. inversion_clear H as [|? ? HS HF].
  constructor; [apply IH; exact HS|]. rewrite Forall_map in HF. exact HF.
Qed.

Section Top.
Variable K : Num.
Hypothesis HO : OrderedLaws K.
Let HK : FieldLaws K := ord_field K HO.
Local Notation T := (car K).
Local Notation "0" := (zero K) : num_scope.
Local Notation "1" := (one K) : num_scope.
Local Notation "x + y" := (add K x y) : num_scope.
Local Notation "x - y" := (sub K x y) : num_scope.
Local Notation "x * y" := (mul K x y) : num_scope.
Local Notation "x / y" := (div K x y) : num_scope.
Local Notation "- x" := (opp K x) : num_scope.
Local Notation "# n" := (ofnat K n) (at level 2) : num_scope.
Local Notation "x < y" := (klt K x y) : num_scope.
Local Notation "x <= y" := (kle K x y) : num_scope.
Local Open Scope num_scope.
Add Field KfieldPST : (fl_field K HK).
Local Notation at_ l i := (nth i l 0).
Local Notation two := (1 + 1).

Lemma heights_spec M xs h : (1 <= M)%nat -> length h = M -> Asc K M h -> IsMin K xs (at_ h 0) -> IsMax K xs (at_ h (M - 1)) ->
  MarkerHeights K M xs h.
Proof.
  intros HM L A B C. split; [exact L|]. split; [apply (Asc_nondec K HO); rewrite L; exact A|].
  exists (at_ h 0), (at_ h (M - 1)). rewrite !(nth_error_nth0 h _ 0) by lia. auto.
Qed.

Lemma SAsc_lt L p i j : SAsc K L p -> (i < j)%nat -> (j < L)%nat -> at_ p i < at_ p j.
Proof.
  intros HS Hij Hj. induction j as [|j IH]; [lia|]. destruct (Nat.eq_dec i j) as [->|N]; [apply HS; exact Hj|].
  apply (klt_trans K HO) with (at_ p j); [apply IH; lia|apply HS; exact Hj].
Qed.
Lemma SAsc_adj L N p i p' : SAsc K L p -> length p = N -> (1 <= i)%nat -> (S i < N)%nat ->
  Moved K (at_ p (i - 1)) (at_ p i) (at_ p (S i)) p' -> SAsc K L (set_nth i p' p).
Proof.
  intros HS Lp H1 H2 HMv j Hj. rewrite !(at_set K) by lia. assert (Hj' := HS j Hj).
  destruct (Nat.eqb_spec i j) as [->|N1].
  - destruct (Nat.eqb_spec j (S j)); [lia|]. destruct HMv as [->|[[-> A]|[-> A]]]; auto.
    apply (klt_trans K HO) with (at_ p j); [|exact Hj']. apply (ksub_pos K HO). replace (at_ p j - (at_ p j - 1)) with 1 by ring.
    apply (kone_pos K HO).
  - destruct (Nat.eqb_spec i (S j)) as [->|N2]; [|exact Hj']. replace (S j - 1)%nat with j in HMv by lia.
    destruct HMv as [->|[[-> A]|[-> A]]]; auto.
    apply (klt_trans K HO) with (at_ p (S j)); [exact Hj'|]. apply (ksub_pos K HO). replace (at_ p (S j) + 1 - at_ p (S j)) with 1 by ring.
    apply (kone_pos K HO).
Qed.
Lemma at_ranks n i : (i < n)%nat -> at_ (map (fun i => #(S i)) (seq 0 n)) i = #(S i).
Proof.
  intros H. rewrite (nth_indep _ 0 #(S 0)) by (rewrite map_length, seq_length; exact H).
  rewrite map_nth with (f := fun i => #(S i)), seq_nth by exact H. reflexivity.
Qed.
Definition ones (es : list (T * T)) : Prop := Forall (fun e => snd e = 1) es.
Lemma ones_prefix es e : ones (es ++ [e]) -> ones es.
Proof. intros H. apply Forall_app in H. apply H. Qed.
Lemma ones_last es e : ones (es ++ [e]) -> snd e = 1.
Proof. intros H. apply Forall_app in H. destruct H as [_ H]. inversion_clear H. assumption. Qed.
Lemma ones_total es : ones es -> total K snd es = #(length es).
Proof.
  induction es as [|e es IH] using rev_ind; intros H; [reflexivity|].
  rewrite (total_snoc K HK), app_length, IH, (ones_last _ _ H) by (eapply ones_prefix; exact H).
  replace (length es + length [e])%nat with (S (length es)) by (cbn; lia). reflexivity.
Qed.
Lemma uD_step inc (es : list (T * T)) e d : (1 <= length es)%nat -> d = map (fun f => 1 + #(length es - 1) * f) inc ->
  des_inc K inc (total K snd (es ++ [e])) [] d = Ok (map (fun f => 1 + #(length (es ++ [e]) - 1) * f) inc).
Proof.
  intros HL ->. unfold des_inc. f_equal. rewrite app_length. replace (length es + length [e] - 1)%nat with (S (length es - 1)) by (cbn; lia).
  generalize (length es - 1)%nat. intros n. generalize inc as l. induction l as [|f l IH]; [reflexivity|]. cbn [map combine fst snd].
  f_equal; [cbn [ofnat]; ring|exact IH].
Qed.
Lemma des_inc_pos inc W p d : des_inc K inc W p d = des_inc K inc W [] d.
Proof. reflexivity. Qed.


(** *** Unweighted *)
Section Unweighted.
Variable M : nat.
Variable inc : list T.
Variable m0 : marks K.
Hypothesis HM : (2 <= M)%nat.
Hypothesis Linc : length inc = M.
Hypothesis Lh0 : length (mh K m0) = M.
Hypothesis Ep0 : mp K m0 = map (fun i => #(S i)) (seq 0 M).
Hypothesis Ed0 : md K m0 = map (fun f => 1 + #(M - 1) * f) inc.

Definition uP (es : list (T * T)) (p : list T) : Prop :=
  SAsc K M p /\ at_ p 0 = 1 /\ at_ p (M - 1) = #(length es) /\ forall i, (i < M)%nat -> exists k, at_ p i = #k.
Definition uD (es : list (T * T)) (_ : T) (d : list T) : Prop := d = map (fun f => 1 + #(length es - 1) * f) inc.

Lemma uP_init es : length es = M -> ones es -> uP es (mp K m0).
Proof.
  intros HL HG. rewrite Ep0. split; [|split; [|split]].
  - intros i Hi. rewrite !at_ranks by lia. apply (kofnat_lt K HO). lia.
  - rewrite at_ranks by lia. apply (ofnat_1 K HK).
  - rewrite at_ranks by lia. rewrite HL. f_equal. lia.
  - intros i Hi. rewrite at_ranks by lia. eauto.
Qed.
Lemma uP_bump es e p k : ones (es ++ [e]) -> length p = M -> uP es p -> (1 <= k)%nat -> (k <= M - 1)%nat ->
  uP (es ++ [e]) (bump K k (snd e) p).
Proof.
  intros HG Lp (H1 & H2 & H3 & H4) Hk1 Hk2. rewrite (ones_last _ _ HG).
  split; [apply (bump_SAsc K HO); [apply (kone_pos K HO)|exact H1|lia]|]. split; [|split].
  - rewrite (bump_at K) by lia. destruct (Nat.ltb_spec 0 k); [exact H2|lia].
  - rewrite (bump_at K) by lia. destruct (Nat.ltb_spec (M - 1) k); [lia|]. rewrite H3, app_length.
    replace (length es + length [e])%nat with (S (length es)) by (cbn; lia). reflexivity.
  - intros i Hi. rewrite (bump_at K) by lia. destruct (H4 i Hi) as [n Hn]. destruct (Nat.ltb i k); [eauto|].
    exists (S n). rewrite Hn. reflexivity.
Qed.
Lemma uP_adj es p i p' : length p = M -> (1 <= i)%nat -> (S i < M)%nat ->
     Moved K (at_ p (i - 1)) (at_ p i) (at_ p (S i)) p' -> uP es p -> uP es (set_nth i p' p).
Proof.
  intros Lp Hi1 Hi2 HMv (H1 & H2 & H3 & H4). split; [eapply SAsc_adj; eauto|].
  rewrite !(at_set K) by lia. destruct (Nat.eqb_spec i 0); [lia|]. destruct (Nat.eqb_spec i (M - 1)); [lia|].
  split; [exact H2|]. split; [exact H3|]. intros j Hj. rewrite (at_set K) by lia.
  destruct (Nat.eqb_spec i j) as [<-|N]; [|apply H4; exact Hj]. destruct (H4 i Hj) as [k Hk].
  destruct HMv as [->|[[-> A]|[-> A]]]; [eauto|exists (S k); rewrite Hk; reflexivity|].
  destruct k as [|k].
  - exfalso. assert (B := SAsc_lt M p 0 i H1 ltac:(lia) Hj). rewrite H2, Hk in B. cbn in B.
    apply (klt_irrefl K HO 0). eapply (klt_trans K HO); [apply (kone_pos K HO)|exact B].
  - exists k. rewrite Hk. cbn [ofnat]. ring.
Qed.
Lemma unweighted_main es : (M <= length es)%nat -> ones es -> exists s, psq_run K M false 0 (des_inc K inc) m0 es = Ok s /\
  ps_count K s = length es /\ ps_wsum K s = total K snd es /\
  let m := ps_marks K s in
  length (mh K m) = M /\ length (mp K m) = M /\ length (md K m) = M /\ Asc K M (mh K m) /\
  IsMin K (map fst es) (at_ (mh K m) 0) /\ IsMax K (map fst es) (at_ (mh K m) (M - 1)) /\
  uP es (mp K m) /\ uD es (at_ (mp K m) 0) (md K m).
Proof.
  assert (Lp0 : length (mp K m0) = M) by (rewrite Ep0, map_length, seq_length; reflexivity).
  assert (Ld0 : length (md K m0) = M) by (rewrite Ed0, map_length; exact Linc).
  apply (run_main K HO M false 0 (des_inc K inc) m0 HM Lh0 Lp0 Ld0 ones uP uD).
  - exact ones_prefix.
  - intros es' HL HG. apply uP_init; assumption.
  - intros es' e p k b HG HL Lp HP Hk1 Hk2 Hb. destruct b; [destruct (Hb eq_refl); discriminate|]. apply uP_bump; assumption.
  - intros es' p i p' HG. apply uP_adj.
  - intros es' HL HG. unfold uD. rewrite Ed0, HL. reflexivity.
  - intros es' e p q d HG HL Lp Ld HP HD. rewrite des_inc_pos. rewrite (uD_step inc es' e d); [|lia|exact HD].
    eexists. split; [reflexivity|]. split; [rewrite map_length; exact Linc|reflexivity].
Qed.

Lemma ranks_spec es p : length p = M -> uP es p -> MarkerRanks K M (length es) p.
Proof.
  intros Lp (H1 & H2 & H3 & H4).
  assert (E : exists ns, p = map (ofnat K) ns).
  { assert (H : forall l, (forall i, (i < length l)%nat -> exists k, at_ l i = #k) -> exists ns, l = map (ofnat K) ns).
    { clear. induction l as [|a l IH]; intros H; [exists []; reflexivity|].
      destruct (H 0%nat ltac:(cbn; lia)) as [k Hk]. cbn in Hk. destruct IH as [ns ->].
      - intros i Hi. apply (H (S i)). cbn. lia.
      - exists (k :: ns). rewrite Hk. reflexivity. }
    apply H. rewrite Lp. exact H4. }
  destruct E as [ns ->]. rewrite map_length in Lp. exists ns. split; [reflexivity|]. split; [exact Lp|].
  assert (EA : forall i, (i < M)%nat -> at_ (map (ofnat K) ns) i = #(nth i ns 0%nat)).
  { intros i Hi. rewrite <- (map_nth (ofnat K)). reflexivity. }
  assert (INJ : forall a b, #a = #b -> a = b).
  { intros a b E. apply Nat.le_antisymm; apply (kofnat_le_inv K HO); rewrite E; apply (kle_refl K HO). }
  split; [|split].
  - assert (S1 : Increasing K (map (ofnat K) ns)) by (apply (SAsc_inc K HO); rewrite map_length, Lp; exact H1).
    apply ss_map_inv in S1.
    eapply StronglySorted_impl; [|exact S1]. intros a b _ _. apply (kofnat_lt_inv K HO).
  - rewrite (nth_error_nth0 ns 0 0%nat) by lia. f_equal. apply INJ. rewrite <- EA by lia. rewrite H2. symmetry. apply (ofnat_1 K HK).
  - rewrite (nth_error_nth0 ns (M - 1) 0%nat) by lia. f_equal. apply INJ. rewrite <- EA by lia. exact H3.
Qed.
End Unweighted.
End Top.
