(** Proofs about the tail accumulators. *)
From Coq Require Import List Arith Bool Permutation Sorted Lia.
From Verif Require Import Num ModelRolling ModelTail SpecTail ProofRollingBuf.
Import ListNotations.

Lemma nth_error_set_nth {B} n (v : B) l j : n < length l ->
  nth_error (set_nth n v l) j = if Nat.eqb n j then Some v else nth_error l j.
Proof.
  revert n j; induction l as [|h t IH]; intros n j Hn; [cbn in Hn; lia|].
  destruct n as [|n], j as [|j]; cbn; auto. cbn in Hn. apply IH. lia.
Qed.

(** ** Heaps *)
Section Heap.
Variable comp : nat -> nat -> bool.
Hypothesis SW : StrictWeak comp.

Lemma heap_top l t i b : IsHeap comp (t :: l) -> nth_error (t :: l) i = Some b -> comp t b = false.
Proof.
  intros HH. revert b. induction i as [i IH] using (well_founded_induction lt_wf). intros b Hb.
  destruct i as [|i].
  - cbn in Hb. injection Hb as <-. apply (sw_irrefl _ SW).
  - assert (Hd : Nat.div2 i < S i) by (assert (Nat.div2 i <= i) by (apply Nat.div2_decr; lia); lia).
    assert (Hlt : Nat.div2 i < length (t :: l)).
    { assert (S i < length (t :: l)) by (apply nth_error_Some; rewrite Hb; discriminate). lia. }
    destruct (nth_error (t :: l) (Nat.div2 i)) as [a|] eqn:Ea.
    2:{ apply nth_error_None in Ea. lia. }
    apply (sw_negtrans _ SW) with a.
    + exact (IH _ Hd a Ea).
    + apply (HH (S i) a b); [lia| |exact Hb]. replace (S i - 1) with i by lia. exact Ea.
Qed.
Lemma heap_top_in l t b : IsHeap comp (t :: l) -> In b (t :: l) -> comp t b = false.
Proof. intros HH Hin. apply In_nth_error in Hin. destruct Hin as [i Hi]. eapply heap_top; eauto. Qed.

Lemma IsHeap_ext comp' l : (forall a b, In a l -> In b l -> comp a b = comp' a b) ->
  IsHeap comp l -> IsHeap comp' l.
Proof.
  intros HE HH i a b Hi Ha Hb. rewrite <- HE; eauto using nth_error_In.
Qed.
Lemma sorted_heap l : StronglySorted (fun a b => comp a b = false) l -> IsHeap comp l.
Proof.
  intros HS i a b Hi Ha Hb.
  assert (Hj : Nat.div2 (i - 1) < i).
  { assert (Nat.div2 (i - 1) <= i - 1) by (apply Nat.div2_decr; lia). lia. }
  revert Hj Ha Hb. generalize (Nat.div2 (i - 1)) as j. clear Hi. revert i.
  induction HS as [|x l HS IH HF]; intros i j Hj Ha Hb; [destruct i; discriminate|].
  destruct i as [|i]; [lia|]. cbn in Hb. destruct j as [|j].
  - cbn in Ha. injection Ha as <-. rewrite Forall_forall in HF. apply HF. eapply nth_error_In; eauto.
  - cbn in Ha. apply (IH i j); auto. lia.
Qed.
End Heap.

Lemma StronglySorted_snoc {A} (R : A -> A -> Prop) l x :
  StronglySorted R l -> Forall (fun y => R y x) l -> StronglySorted R (l ++ [x]).
Proof.
  induction l as [|y l IH]; intros HS HF; cbn; [constructor; constructor|].
  inversion_clear HS; inversion_clear HF. constructor; [apply IH; assumption|].
  apply Forall_app; split; [assumption | constructor; [assumption|constructor]].
Qed.
Lemma StronglySorted_rev {A} (R : A -> A -> Prop) l :
  StronglySorted R l -> StronglySorted (fun a b => R b a) (rev l).
Proof.
  induction 1 as [|x l HS IH HF]; cbn; [constructor|].
  apply StronglySorted_snoc; [exact IH|]. apply Forall_rev. exact HF.
Qed.
Lemma StronglySorted_impl {A} (R S : A -> A -> Prop) l :
  (forall a b, In a l -> In b l -> R a b -> S a b) -> StronglySorted R l -> StronglySorted S l.
Proof.
  intros HI HS. induction HS as [|x l HS IH HF]; constructor.
  - apply IH. intros; apply HI; auto; right; auto.
  - rewrite Forall_forall in *. intros y Hy. apply HI; [left; auto | right; auto | apply HF; auto].
Qed.
Lemma StronglySorted_map {A B} (f : A -> B) (R : B -> B -> Prop) l :
  StronglySorted (fun a b => R (f a) (f b)) l -> StronglySorted R (map f l).
Proof.
  induction 1 as [|x l HS IH HF]; cbn; constructor; [assumption|].
  rewrite Forall_map. exact HF.
Qed.

Section Tail.
Variables A V : Type.
Variable H : HeapOps.
Hypothesis HC : HeapContract H.
Variable pred : A -> A -> bool.
Hypothesis SP : StrictWeak pred.

Lemma indirect_sw samples : StrictWeak (indirect_cmp pred samples).
Proof.
  constructor; unfold indirect_cmp.
  - intros a. destruct (nth_error samples a); [apply (sw_irrefl _ SP)|reflexivity].
  - intros a b c. destruct (nth_error samples a), (nth_error samples b), (nth_error samples c);
      try discriminate; auto. apply (sw_trans _ SP).
  - intros a b c. destruct (nth_error samples a), (nth_error samples b), (nth_error samples c);
      try discriminate; auto. apply (sw_negtrans _ SP).
Qed.

(** The entry (sample, values of the tail variates) stored in slot [i]. *)
Definition slot_variates (variates : list (list V)) (i : nat) : list V :=
  flat_map (fun arr => match nth_error arr i with Some v => [v] | None => [] end) variates.
Definition slot (s : tail_state A V) (i : nat) : list (A * list V) :=
  match nth_error (tl_samples s) i with
  | Some a => [(a, slot_variates (tl_variates s) i)]
  | None => []
  end.
Definition entries (s : tail_state A V) : list (A * list V) := flat_map (slot s) (tl_indices s).

Record tail_inv (k nv : nat) (hist : list (A * list V)) (s : tail_state A V) : Prop := {
  ti_len : length (tl_samples s) = k;
  ti_nv : length (tl_variates s) = nv;
  ti_vlen : Forall (fun arr => length arr = k) (tl_variates s);
  ti_idx : Permutation (tl_indices s) (seq 0 (Nat.min k (length hist)));
  ti_heap : IsHeap (indirect_cmp pred (tl_samples s)) (tl_indices s);
  ti_sorted : tl_sorted s = true ->
    StronglySorted (fun i j => indirect_cmp pred (tl_samples s) i j = false) (tl_indices s);
  ti_hist : exists rest, Permutation hist (entries s ++ rest) /\
    forall a b, In a (entries s) -> In b rest -> pred (fst b) (fst a) = false
}.

Lemma idx_lt k nv hist s i : tail_inv k nv hist s -> In i (tl_indices s) -> i < k.
Proof.
  intros I Hi. apply (Permutation_in _ (ti_idx _ _ _ _ I)) in Hi. apply in_seq in Hi. lia.
Qed.
Lemma idx_nodup k nv hist s : tail_inv k nv hist s -> NoDup (tl_indices s).
Proof.
  intros I. eapply Permutation_NoDup; [apply Permutation_sym, (ti_idx _ _ _ _ I) | apply seq_NoDup].
Qed.
Lemma idx_length k nv hist s : tail_inv k nv hist s -> length (tl_indices s) = Nat.min k (length hist).
Proof. intros I. rewrite (Permutation_length (ti_idx _ _ _ _ I)), seq_length. reflexivity. Qed.

Lemma cmp_set samples n x a b : n < length samples -> a <> n -> b <> n ->
  indirect_cmp pred (set_nth n x samples) a b = indirect_cmp pred samples a b.
Proof.
  intros Hn Ha Hb. unfold indirect_cmp. rewrite !nth_error_set_nth by exact Hn.
  destruct (Nat.eqb_spec n a), (Nat.eqb_spec n b); subst; try congruence.
Qed.

(** effect of assign on a slot *)
Lemma slot_variates_other variates vs n i : Forall (fun arr => n < length arr) variates ->
  length vs = length variates -> i <> n ->
  slot_variates (map (fun p => set_nth n (snd p) (fst p)) (combine variates vs)) i = slot_variates variates i.
Proof.
  intros HF. revert vs. induction HF as [|arr variates Hn HF IH]; intros [|v vs] Hl Hi; try discriminate; [reflexivity|].
  cbn. unfold slot_variates in IH. rewrite IH by (cbn in Hl; auto). rewrite nth_error_set_nth by exact Hn.
  destruct (Nat.eqb_spec n i); [congruence|]. reflexivity.
Qed.
Lemma slot_variates_same variates vs n : Forall (fun arr => n < length arr) variates ->
  length vs = length variates ->
  slot_variates (map (fun p => set_nth n (snd p) (fst p)) (combine variates vs)) n = vs.
Proof.
  intros HF. revert vs. induction HF as [|arr variates Hn HF IH]; intros [|v vs] Hl; try discriminate; [reflexivity|].
  cbn. unfold slot_variates in IH. rewrite IH by (cbn in Hl; auto). rewrite nth_error_set_nth by exact Hn.
  rewrite Nat.eqb_refl. reflexivity.
Qed.

Lemma flat_map_ext_in {B C} (f g : B -> list C) l : (forall x, In x l -> f x = g x) -> flat_map f l = flat_map g l.
Proof. induction l as [|a l IH]; intros HE; cbn; [reflexivity|]. rewrite HE by (left; auto). rewrite IH; auto. intros; apply HE; right; auto. Qed.
Lemma flat_map_perm {B C} (f : B -> list C) l l' : Permutation l l' -> Permutation (flat_map f l) (flat_map f l').
Proof.
  induction 1; cbn; auto.
  - apply Permutation_app_head; assumption.
  - rewrite !app_assoc. apply Permutation_app_tail. apply Permutation_app_comm.
  - etransitivity; eassumption.
Qed.

Lemma variates_len n k nv (s : tail_state A V) vs :
  n < k -> length (tl_variates s) = nv -> Forall (fun arr => length arr = k) (tl_variates s) -> length vs = nv ->
  let variates' := map (fun p => set_nth n (snd p) (fst p)) (combine (tl_variates s) vs) in
  length variates' = nv /\ Forall (fun arr => length arr = k) variates'.
Proof.
  intros Hn Hv HF Hl. cbv zeta. split.
  - rewrite map_length, combine_length. lia.
  - rewrite Forall_map. rewrite Forall_forall in *. intros [arr v] Hin.
    cbn. rewrite set_nth_length. apply HF. apply in_combine_l in Hin. exact Hin.
Qed.

(** The invariant after [assign], given a heap without the index and the index at the back. *)
Lemma assign_inv k nv hist (s : tail_state A V) x vs l' n rest :
  length (tl_samples s) = k -> length (tl_variates s) = nv -> Forall (fun arr => length arr = k) (tl_variates s) ->
  length vs = nv -> n < k -> ~ In n l' -> (forall i, In i l' -> i < k) ->
  IsHeap (indirect_cmp pred (tl_samples s)) l' ->
  Permutation (l' ++ [n]) (seq 0 (Nat.min k (length (hist ++ [(x, vs)])))) ->
  Permutation (hist ++ [(x, vs)]) (flat_map (slot s) l' ++ (x, vs) :: rest) ->
  (forall a b, In a (flat_map (slot s) l' ++ [(x, vs)]) -> In b rest -> pred (fst b) (fst a) = false) ->
  tail_inv k nv (hist ++ [(x, vs)]) (tail_assign H pred (tl_samples s) (l' ++ [n]) (tl_variates s) n x vs).
Proof.
  intros Hk Hnv HF Hvs Hn Hnin Hlt Hheap Hperm Hhist Hrest.
  set (samples' := set_nth n x (tl_samples s)).
  assert (SW := indirect_sw samples').
  assert (Hheap' : IsHeap (indirect_cmp pred samples') l').
  { eapply IsHeap_ext; [|exact Hheap]. intros a b Ha Hb. symmetry. apply cmp_set; [lia| |]; intros ->; auto. }
  destruct (hc_push H HC _ SW l' n Hheap') as [HP1 HP2].
  destruct (variates_len n k nv s vs Hn Hnv HF Hvs) as [HV1 HV2].
  unfold tail_assign. fold samples'.
  assert (HFn : Forall (fun arr : list V => n < length arr) (tl_variates s)).
  { rewrite Forall_forall in *. intros arr Ha. specialize (HF arr Ha). lia. }
  set (s' := {| tl_sorted := false; tl_indices := push_heap H (indirect_cmp pred samples') (l' ++ [n]);
     tl_samples := samples'; tl_variates := _ |}).
  assert (Hslot : flat_map (slot s') l' = flat_map (slot s) l').
  { apply flat_map_ext_in. intros i Hi. unfold slot, s'. cbn [tl_samples tl_variates]. unfold samples'.
    rewrite nth_error_set_nth by lia.
    assert (i <> n) by (intros ->; auto). destruct (Nat.eqb_spec n i); [congruence|].
    rewrite slot_variates_other by (auto; lia). reflexivity. }
  assert (Hslotn : slot s' n = [(x, vs)]).
  { unfold slot, s'. cbn [tl_samples tl_variates]. unfold samples'. rewrite nth_error_set_nth by lia.
    rewrite Nat.eqb_refl. rewrite slot_variates_same by (auto; lia). reflexivity. }
  assert (HE : Permutation (entries s') (flat_map (slot s) l' ++ [(x, vs)])).
  { unfold entries. etransitivity; [apply flat_map_perm; exact HP1|].
    rewrite flat_map_app, Hslot. cbn [flat_map]. rewrite Hslotn, app_nil_r. reflexivity. }
  constructor.
  - unfold s'. cbn. unfold samples'. rewrite set_nth_length. exact Hk.
  - exact HV1.
  - exact HV2.
  - etransitivity; [exact HP1 | exact Hperm].
  - exact HP2.
  - cbn. discriminate.
  - exists rest. split.
    + etransitivity; [exact Hhist|]. etransitivity; [|apply Permutation_app_tail, Permutation_sym, HE].
      rewrite <- app_assoc. reflexivity.
    + intros a b Ha Hb. apply Hrest; [|exact Hb]. eapply Permutation_in; [exact HE|exact Ha].
Qed.

Lemma slot_fst (s : tail_state A V) i a : In a (slot s i) -> nth_error (tl_samples s) i = Some (fst a).
Proof. unfold slot. destruct (nth_error (tl_samples s) i); cbn; [|tauto]. intros [<-|[]]. reflexivity. Qed.
Lemma slot_some k nv hist s i : tail_inv k nv hist s -> i < k ->
  exists a, nth_error (tl_samples s) i = Some a /\ slot s i = [(a, slot_variates (tl_variates s) i)].
Proof.
  intros I Hi. unfold slot. destruct (nth_error (tl_samples s) i) as [a|] eqn:E; [eauto|].
  apply nth_error_None in E. rewrite (ti_len _ _ _ _ I) in E. lia.
Qed.

Lemma tail_push_inv k nv hist s x vs : 0 < k -> length vs = nv -> tail_inv k nv hist s ->
  exists s', tail_push H pred s x vs = Ok s' /\ tail_inv k nv (hist ++ [(x, vs)]) s'.
Proof.
  intros Hk0 Hvs I. assert (Hlen := idx_length _ _ _ _ I).
  destruct (ti_hist _ _ _ _ I) as (rest & HP & HR).
  unfold tail_push. rewrite Hlen, (ti_len _ _ _ _ I).
  destruct (Nat.ltb_spec (Nat.min k (length hist)) k) as [Hlt|Hge].
  - (* room left *)
    eexists; split; [reflexivity|].
    set (n := Nat.min k (length hist)) in *.
    assert (Hn : n = length hist) by lia.
    assert (Hrest : rest = []).
    { apply Permutation_length in HP. rewrite app_length in HP.
      assert (length (entries s) = length (tl_indices s)).
      { unfold entries. assert (forall i, In i (tl_indices s) -> length (slot s i) = 1).
        { intros i Hi. destruct (slot_some _ _ _ _ i I (idx_lt _ _ _ _ _ I Hi)) as (a & _ & ->). reflexivity. }
        clear - H0. induction (tl_indices s) as [|i l IH]; cbn; [reflexivity|].
        rewrite app_length, H0 by (left; auto). rewrite IH by (intros; apply H0; right; auto). reflexivity. }
      destruct rest; [reflexivity|]. cbn in HP. lia. }
    subst rest. rewrite app_nil_r in HP.
    apply assign_inv with (rest := []); try apply I; auto.
    + intros Hin. apply (Permutation_in _ (ti_idx _ _ _ _ I)) in Hin. apply in_seq in Hin. lia.
    + intros i Hi. eapply idx_lt; eauto.
    + rewrite app_length. cbn. replace (Nat.min k (length hist + 1)) with (n + 1) by lia.
      rewrite seq_app. cbn. apply Permutation_app_tail. exact (ti_idx _ _ _ _ I).
    + apply Permutation_app_tail. exact HP.
    + intros a b _ [].
  - (* full *)
    destruct (tl_indices s) as [|top l] eqn:Eidx; [cbn in Hlen; lia|].
    assert (Hheap := ti_heap _ _ _ _ I). rewrite Eidx in Hheap.
    assert (Htop : top < k) by (eapply idx_lt; [exact I|rewrite Eidx; left; reflexivity]).
    destruct (slot_some _ _ _ _ top I Htop) as (t & Et & Hst). rewrite Et.
    assert (SW := indirect_sw (tl_samples s)).
    assert (Htopmin : forall a, In a (entries s) -> pred t (fst a) = false).
    { intros a Ha. unfold entries in Ha. apply in_flat_map in Ha. destruct Ha as (i & Hi & Ha).
      rewrite Eidx in Hi. assert (Hc := heap_top_in _ SW _ _ _ Hheap Hi). unfold indirect_cmp in Hc.
      rewrite Et, (slot_fst _ _ _ Ha) in Hc. exact Hc. }
    assert (Hent : entries s = (t, slot_variates (tl_variates s) top) :: flat_map (slot s) l)
      by (unfold entries; rewrite Eidx; cbn; rewrite Hst; reflexivity).
    destruct (pred x t) eqn:Epred.
    + (* replaces the least extreme *)
      destruct (hc_pop H HC _ SW top l Hheap) as (l' & Epop & Hpl & Hheap').
      rewrite Epop, rev_unit. eexists; split; [reflexivity|].
      assert (Hnd := idx_nodup _ _ _ _ I). rewrite Eidx in Hnd. inversion_clear Hnd as [|? ? Hnin Hnd'].
      assert (Hfl : Permutation (flat_map (slot s) l') (flat_map (slot s) l)) by (apply flat_map_perm; exact Hpl).
      apply assign_inv with (rest := (t, slot_variates (tl_variates s) top) :: rest); try apply I; auto.
      * intros Hin. apply Hnin. eapply Permutation_in; [exact Hpl|exact Hin].
      * intros i Hi. eapply idx_lt; [exact I|]. rewrite Eidx. right. eapply Permutation_in; [exact Hpl|exact Hi].
      * rewrite app_length. cbn. replace (Nat.min k (length hist + 1)) with (Nat.min k (length hist)) by lia.
        etransitivity; [|rewrite <- Eidx in *; exact (ti_idx _ _ _ _ I)]. rewrite Eidx.
        etransitivity; [apply Permutation_app_comm|]. cbn. constructor. exact Hpl.
      * rewrite Hent in HP. cbn in HP.
        etransitivity; [apply Permutation_app_tail; exact HP|].
        etransitivity; [|apply Permutation_app_tail, Permutation_sym, Hfl].
        change (((t, slot_variates (tl_variates s) top) :: flat_map (slot s) l ++ rest) ++ [(x, vs)])
          with ((t, slot_variates (tl_variates s) top) :: (flat_map (slot s) l ++ rest) ++ [(x, vs)]).
        rewrite <- app_assoc. rewrite Permutation_middle. apply Permutation_app_head.
        rewrite (Permutation_app_comm rest [(x, vs)]). cbn. apply perm_swap.
      * intros a b Ha Hb. apply in_app_or in Ha.
        assert (Ha' : In a (entries s) \/ a = (x, vs)).
        { destruct Ha as [Ha|[<-|[]]]; [left|right; reflexivity]. rewrite Hent. right.
          eapply Permutation_in; [exact Hfl|exact Ha]. }
        destruct Hb as [<-|Hb].
        -- destruct Ha' as [Ha'| ->]; [apply Htopmin; exact Ha'|]. cbn.
           destruct (pred t x) eqn:C; [|reflexivity].
           rewrite <- (sw_irrefl _ SP x). symmetry. apply (sw_trans _ SP) with t; assumption.
        -- destruct Ha' as [Ha'| ->]; [apply HR; assumption|]. cbn.
           destruct (pred (fst b) x) eqn:C; [|reflexivity].
           rewrite <- (HR (t, slot_variates (tl_variates s) top) b); [|rewrite Hent; left; reflexivity|exact Hb].
           symmetry. cbn. apply (sw_trans _ SP) with x; assumption.
    + (* not more extreme *)
      eexists; split; [reflexivity|]. destruct I as [I1 I2 I3 I4 I5 I6 I7].
      constructor; auto.
      * rewrite app_length. cbn. replace (Nat.min k (length hist + 1)) with (Nat.min k (length hist)) by lia. exact I4.
      * exists ((x, vs) :: rest). split.
        -- etransitivity; [apply Permutation_app_tail; exact HP|]. rewrite <- app_assoc.
           apply Permutation_app_head. apply Permutation_app_comm.
        -- intros a b Ha [<-|Hb]; [|apply HR; assumption]. cbn.
           apply (sw_negtrans _ SP) with t; [exact Epred|]. apply Htopmin. exact Ha.
Qed.

Lemma tail_sort_inv k nv hist s : tail_inv k nv hist s ->
  tail_inv k nv hist (tail_sort H pred s) /\ tl_sorted (tail_sort H pred s) = true.
Proof.
  intros I. unfold tail_sort. destruct (tl_sorted s) eqn:E; [split; assumption|]. split; [|reflexivity].
  assert (SW := indirect_sw (tl_samples s)).
  destruct (hc_sort H HC _ SW _ (ti_heap _ _ _ _ I)) as [HP HS].
  assert (HP' : Permutation (rev (sort_heap H (indirect_cmp pred (tl_samples s)) (tl_indices s))) (tl_indices s))
    by (etransitivity; [apply Permutation_sym, Permutation_rev|exact HP]).
  apply StronglySorted_rev in HS.
  constructor; cbn [tl_samples tl_variates tl_indices tl_sorted]; try apply I.
  - etransitivity; [exact HP'|exact (ti_idx _ _ _ _ I)].
  - apply sorted_heap. exact HS.
  - intros _. exact HS.
  - destruct (ti_hist _ _ _ _ I) as (rest & HP2 & HR).
    assert (HE : Permutation (entries {| tl_sorted := true;
       tl_indices := rev (sort_heap H (indirect_cmp pred (tl_samples s)) (tl_indices s));
       tl_samples := tl_samples s; tl_variates := tl_variates s |}) (entries s)).
    { unfold entries. cbn [tl_indices]. apply flat_map_perm. exact HP'. }
    exists rest. split.
    + etransitivity; [exact HP2|]. apply Permutation_app_tail. symmetry. exact HE.
    + intros a b Ha Hb. apply HR; [|exact Hb]. eapply Permutation_in; [exact HE|exact Ha].
Qed.

Lemma tail_init_inv k nv dA dV : tail_inv k nv [] (tail_init k nv dA dV).
Proof.
  constructor; cbn.
  - apply repeat_length.
  - apply repeat_length.
  - apply Forall_forall. intros arr Ha. apply repeat_spec in Ha. subst arr. apply repeat_length.
  - rewrite Nat.min_0_r. constructor.
  - intros i a b Hi Ha Hb. destruct i; discriminate.
  - discriminate.
  - exists []. split; [constructor|]. intros a b [].
Qed.

Lemma tail_run_from k nv ops : 0 < k -> WellFormed nv ops -> forall hist s, tail_inv k nv hist s ->
  exists s', tail_run H pred s ops = Ok s' /\ tail_inv k nv (hist ++ pushes ops) s'.
Proof.
  intros Hk. induction ops as [|o ops IH]; intros HW hist s I.
  - exists s. split; [reflexivity|]. cbn. rewrite app_nil_r. exact I.
  - unfold WellFormed in HW. cbn in HW. destruct o as [x vs|].
    + cbn in HW. inversion_clear HW as [|? ? Hx HW']. cbn in Hx.
      destruct (tail_push_inv k nv hist s x vs Hk Hx I) as (s1 & E1 & I1).
      destruct (IH HW' _ _ I1) as (s' & E' & I'). exists s'. split.
      * unfold tail_run in *. cbn. rewrite E1. exact E'.
      * cbn. rewrite <- app_assoc in I'. exact I'.
    + cbn in HW. destruct (tail_sort_inv _ _ _ _ I) as [I1 _].
      destruct (IH HW _ _ I1) as (s' & E' & I'). exists s'. split; [exact E'|exact I'].
Qed.
Lemma tail_run_inv k nv dA dV ops : 0 < k -> WellFormed nv ops ->
  exists s, tail_run H pred (tail_init k nv dA dV) ops = Ok s /\ tail_inv k nv (pushes ops) s.
Proof. intros Hk HW. exact (tail_run_from k nv ops Hk HW [] _ (tail_init_inv k nv dA dV)). Qed.

(** ** Reading the tail *)
Lemma read_all_entries k nv hist s is : tail_inv k nv hist s -> (forall i, In i is -> i < k) ->
  read_all (tl_samples s) is = Ok (map fst (flat_map (slot s) is)).
Proof.
  intros I. induction is as [|i is IH]; intros Hlt; [reflexivity|]. cbn.
  destruct (slot_some _ _ _ _ i I (Hlt i (or_introl eq_refl))) as (a & -> & ->).
  rewrite IH by (intros; apply Hlt; right; auto). reflexivity.
Qed.
Lemma slot_variates_nth variates i j : Forall (fun arr : list V => i < length arr) variates ->
  nth_error (slot_variates variates i) j =
  match nth_error variates j with Some arr => nth_error arr i | None => None end.
Proof.
  intros HF. revert j. induction HF as [|arr variates Hi HF IH]; intros j.
  - destruct j; reflexivity.
  - cbn. destruct (nth_error arr i) as [v|] eqn:E; [|apply nth_error_None in E; lia].
    destruct j as [|j]; cbn; [symmetry; exact E|]. apply IH.
Qed.
Lemma read_all_variates k nv hist s j arr is : tail_inv k nv hist s -> (forall i, In i is -> i < k) ->
  nth_error (tl_variates s) j = Some arr ->
  exists vals, read_all arr is = Ok vals /\
    map Some vals = map (fun e => nth_error (snd e) j) (flat_map (slot s) is).
Proof.
  intros I Hlt Ej. induction is as [|i is IH]; [exists []; split; reflexivity|].
  destruct IH as (vals & E & EM); [intros; apply Hlt; right; auto|].
  assert (Hi : i < k) by (apply Hlt; left; auto).
  assert (HF := ti_vlen _ _ _ _ I).
  assert (Hlen : length arr = k). { rewrite Forall_forall in HF. apply HF. eapply nth_error_In; eauto. }
  destruct (nth_error arr i) as [v|] eqn:Ev; [|apply nth_error_None in Ev; lia].
  exists (v :: vals). cbn. rewrite Ev, E. split; [reflexivity|].
  destruct (slot_some _ _ _ _ i I Hi) as (a & _ & ->). cbn. rewrite EM. f_equal.
  rewrite slot_variates_nth, Ej, Ev; [reflexivity|].
  eapply Forall_impl; [|exact HF]. cbn. intros; lia.
Qed.

Lemma tail_extract_spec k nv hist s : tail_inv k nv hist s ->
  exists es, IsTail (fun a b => pred (fst a) (fst b)) k hist es /\
    tail_result H pred s = Ok (map fst es) /\
    forall j, j < nv -> exists vals, tail_variate_result H pred s j = Ok vals /\
      map Some vals = map (fun e => nth_error (snd e) j) es.
Proof.
  intros I0. destruct (tail_sort_inv _ _ _ _ I0) as [I Hsorted].
  unfold tail_result, tail_variate_result.
  assert (Esamp : tl_samples (tail_sort H pred s) = tl_samples s) by (unfold tail_sort; destruct (tl_sorted s); reflexivity).
  assert (Evar : tl_variates (tail_sort H pred s) = tl_variates s) by (unfold tail_sort; destruct (tl_sorted s); reflexivity).
  rewrite <- Esamp, <- Evar. set (s' := tail_sort H pred s) in *. clearbody s'. clear Esamp Evar I0 s.
  set (is := rev (tl_indices s')).
  assert (Hlt : forall i, In i is -> i < k) by (intros i Hi; apply in_rev in Hi; eapply idx_lt; eauto).
  assert (HPis : Permutation is (tl_indices s')) by (symmetry; apply Permutation_rev).
  exists (flat_map (slot s') is). split; [|split].
  - split; [|split].
    + assert (forall i, In i is -> length (slot s' i) = 1).
      { intros i Hi. destruct (slot_some _ _ _ _ i I (Hlt i Hi)) as (a & _ & ->). reflexivity. }
      rewrite <- (idx_length _ _ _ _ I), <- (Permutation_length HPis).
      clear - H0. induction is as [|i l IH]; cbn; [reflexivity|].
      rewrite app_length, H0 by (left; auto). rewrite IH by (intros; apply H0; right; auto). reflexivity.
    + assert (HS := ti_sorted _ _ _ _ I Hsorted). apply StronglySorted_rev in HS. fold is in HS.
      clear HPis. induction HS as [|i l HS IH HF]; cbn; [constructor|].
      destruct (slot_some _ _ _ _ i I (Hlt i (or_introl eq_refl))) as (a & Ea & ->). cbn.
      constructor; [apply IH; intros; apply Hlt; right; auto|].
      rewrite Forall_forall in *. intros e He. apply in_flat_map in He. destruct He as (i' & Hi' & He).
      specialize (HF i' Hi'). cbn. unfold indirect_cmp in HF.
      rewrite Ea, (slot_fst _ _ _ He) in HF. exact HF.
    + destruct (ti_hist _ _ _ _ I) as (rest & HP & HR). exists rest.
      assert (HE : Permutation (flat_map (slot s') is) (entries s')) by (apply flat_map_perm; exact HPis).
      split.
      * etransitivity; [exact HP|]. apply Permutation_app_tail. symmetry. exact HE.
      * intros a b Ha Hb. apply HR; [|exact Hb]. eapply Permutation_in; [exact HE|exact Ha].
  - exact (read_all_entries _ _ _ _ _ I Hlt).
  - intros j Hj. destruct (nth_error (tl_variates s') j) as [arr|] eqn:Ej.
    2:{ apply nth_error_None in Ej. rewrite (ti_nv _ _ _ _ I) in Ej. lia. }
    exact (read_all_variates _ _ _ _ _ _ _ I Hlt Ej).
Qed.

Lemma tail_sort_idem (s : tail_state A V) : tail_sort H pred (tail_sort H pred s) = tail_sort H pred s.
Proof. unfold tail_sort. destruct (tl_sorted s) eqn:E; [rewrite E; reflexivity|reflexivity]. Qed.
Lemma tail_sort_samples (s : tail_state A V) : tl_samples (tail_sort H pred s) = tl_samples s.
Proof. unfold tail_sort. destruct (tl_sorted s); reflexivity. Qed.
Lemma tail_sort_variates (s : tail_state A V) : tl_variates (tail_sort H pred s) = tl_variates s.
Proof. unfold tail_sort. destruct (tl_sorted s); reflexivity. Qed.
Lemma extract_twice (s : tail_state A V) :
  tail_result H pred (tail_sort H pred s) = tail_result H pred s /\
  forall j, tail_variate_result H pred (tail_sort H pred s) j = tail_variate_result H pred s j.
Proof.
  split; [|intros j]; unfold tail_result, tail_variate_result; rewrite tail_sort_idem, ?tail_sort_samples, ?tail_sort_variates; reflexivity.
Qed.
End Tail.

(** ** Order facts about IsTail *)
Lemma StronglySorted_map' {A B} (f : A -> B) (R : B -> B -> Prop) l :
  StronglySorted (fun a b => R (f a) (f b)) l -> StronglySorted R (map f l).
Proof. exact (StronglySorted_map f R l). Qed.
Lemma IsTail_map {A B} (f : A -> B) (pred : B -> B -> bool) k xs t :
  IsTail (fun a b => pred (f a) (f b)) k xs t -> IsTail pred k (map f xs) (map f t).
Proof.
  intros (HL & HS & rest & HP & HR). split; [rewrite !map_length; exact HL|]. split.
  - apply StronglySorted_map. exact HS.
  - exists (map f rest). split; [rewrite <- map_app; apply Permutation_map; exact HP|].
    intros a b Ha Hb. apply in_map_iff in Ha, Hb. destruct Ha as (a' & <- & Ha), Hb as (b' & <- & Hb).
    apply HR; assumption.
Qed.

Section Order.
Context {A : Type}.
Variable before : A -> A -> bool.
Hypothesis SW : StrictWeak before.

Lemma SortedBy_app a b : SortedBy before a -> SortedBy before b ->
  (forall x y, In x a -> In y b -> before y x = false) -> SortedBy before (a ++ b).
Proof.
  intros HA HB HAB. induction HA as [|x a HA IH HF]; cbn; [exact HB|].
  constructor.
  - apply IH. intros; apply HAB; auto. right; auto.
  - rewrite Forall_forall in *. intros y Hy. apply in_app_or in Hy. destruct Hy as [Hy|Hy]; [apply HF; auto|].
    apply HAB; [left; auto|exact Hy].
Qed.
Lemma SortedBy_app_inv a b : SortedBy before (a ++ b) -> SortedBy before a /\ SortedBy before b /\
  (forall x y, In x a -> In y b -> before y x = false).
Proof.
  induction a as [|x a IH]; cbn; intros HS.
  - split; [constructor|]. split; [exact HS|]. intros x y [].
  - inversion_clear HS as [|? ? HS' HF]. destruct (IH HS') as (H1 & H2 & H3).
    rewrite Forall_app in HF. destruct HF as [HF1 HF2]. split; [constructor; assumption|]. split; [assumption|].
    intros y z [<-|Hy] Hz; [|apply H3; assumption]. rewrite Forall_forall in HF2. apply HF2. exact Hz.
Qed.

Fixpoint insert_by (x : A) (l : list A) : list A :=
  match l with [] => [x] | y :: t => if before y x then y :: insert_by x t else x :: l end.
Definition sort_by (l : list A) : list A := fold_right insert_by [] l.
Lemma insert_by_perm x l : Permutation (x :: l) (insert_by x l).
Proof.
  induction l as [|y l IH]; cbn; [reflexivity|]. destruct (before y x); [|reflexivity].
  rewrite perm_swap. constructor. exact IH.
Qed.
Lemma sort_by_perm l : Permutation l (sort_by l).
Proof. induction l as [|x l IH]; cbn; [constructor|]. etransitivity; [|apply insert_by_perm]. constructor. exact IH. Qed.
Lemma insert_by_sorted x l : SortedBy before l -> SortedBy before (insert_by x l).
Proof.
  induction 1 as [|y l HS IH HF]; cbn; [constructor; constructor|].
  destruct (before y x) eqn:E.
  - constructor; [exact IH|]. apply Forall_forall. intros z Hz.
    apply (Permutation_in _ (Permutation_sym (insert_by_perm x l))) in Hz. destruct Hz as [<-|Hz].
    + destruct (before x y) eqn:C; [|reflexivity]. rewrite <- (sw_irrefl _ SW x). symmetry. eapply (sw_trans _ SW); eauto.
    + rewrite Forall_forall in HF. apply HF. exact Hz.
  - constructor; [constructor; assumption|]. constructor; [exact E|].
    rewrite Forall_forall in *. intros z Hz. apply (sw_negtrans _ SW) with y; [apply HF; exact Hz|exact E].
Qed.
Lemma sort_by_sorted l : SortedBy before (sort_by l).
Proof. induction l as [|x l IH]; cbn; [constructor|]. apply insert_by_sorted. exact IH. Qed.

(** The tail extended to a sorted permutation of the whole history. *)
Lemma IsTail_extend k xs t : IsTail before k xs t ->
  exists rest, Permutation xs (t ++ rest) /\ SortedBy before (t ++ rest).
Proof.
  intros (HL & HS & rest & HP & HR). exists (sort_by rest). split.
  - etransitivity; [exact HP|]. apply Permutation_app_head. apply sort_by_perm.
  - apply SortedBy_app; [exact HS|apply sort_by_sorted|]. intros x y Hx Hy. apply HR; [exact Hx|].
    eapply Permutation_in; [symmetry; apply sort_by_perm|exact Hy].
Qed.

Lemma IsTail_nth k xs t m v : IsTail before k xs t -> nth_error t m = Some v -> OrderStat before xs (S m) v.
Proof.
  intros HT Hv. destruct (IsTail_extend k xs t HT) as (rest & HP & HS).
  destruct (nth_error_split t m Hv) as (a & b & -> & Hm).
  rewrite <- app_assoc in HS, HP. cbn in HS, HP. exists a, (b ++ rest). split; [exact HP|]. split; [f_equal; exact Hm|].
  destruct (SortedBy_app_inv _ _ HS) as (H1 & H2 & H3). split.
  - intros y Hy. apply H3; [exact Hy|left; reflexivity].
  - inversion_clear H2 as [|? ? _ HF]. rewrite Forall_forall in HF. exact HF.
Qed.
Lemma IsTail_firstn k xs t r : IsTail before k xs t -> r <= length t -> MostExtreme before xs r (firstn r t).
Proof.
  intros HT Hr. destruct (IsTail_extend k xs t HT) as (rest & HP & HS). split; [apply firstn_length_le; exact Hr|].
  exists (skipn r t ++ rest). rewrite app_assoc, firstn_skipn. split; [exact HP|].
  rewrite <- (firstn_skipn r t) in HS. rewrite <- app_assoc in HS.
  destruct (SortedBy_app_inv _ _ HS) as (_ & _ & H3). exact H3.
Qed.

Lemma sorted_unique l l' : (forall a b, In a l -> In b l -> before a b = false -> before b a = false -> a = b) ->
  SortedBy before l -> SortedBy before l' -> Permutation l l' -> l = l'.
Proof.
  revert l'. induction l as [|x l IH]; intros l' antisym HS HS' HP.
  - apply Permutation_nil in HP. subst; reflexivity.
  - destruct l' as [|y l']; [apply Permutation_sym, Permutation_nil in HP; discriminate|].
    inversion_clear HS as [|? ? HS1 HF]. inversion_clear HS' as [|? ? HS1' HF'].
    rewrite Forall_forall in HF, HF'.
    assert (x = y).
    { assert (Hx : In x (y :: l')) by (eapply Permutation_in; [exact HP|left; auto]).
      assert (Hy : In y (x :: l)) by (eapply Permutation_in; [symmetry; exact HP|left; auto]).
      destruct Hx as [->|Hx]; [reflexivity|]. destruct Hy as [->|Hy]; [reflexivity|].
      apply antisym; [left; auto|right; auto|apply HF'; exact Hx | apply HF; exact Hy]. }
    subst y. f_equal. apply IH; auto.
    + intros; apply antisym; auto; right; auto.
    + apply Permutation_cons_inv in HP. exact HP.
Qed.
Lemma IsTail_unique k xs xs' t t' : (forall a b, In a xs -> In b xs -> before a b = false -> before b a = false -> a = b) ->
  Permutation xs xs' -> IsTail before k xs t -> IsTail before k xs' t' -> t = t'.
Proof.
  intros antisym HPx HT HT'. destruct (IsTail_extend _ _ _ HT) as (r & HP & HS).
  destruct (IsTail_extend _ _ _ HT') as (r' & HP' & HS').
  assert (E : t ++ r = t' ++ r').
  { apply sorted_unique; auto.
    - intros a b Ha Hb. apply antisym; (eapply Permutation_in; [symmetry; exact HP|assumption]).
    - etransitivity; [symmetry; exact HP|]. etransitivity; [exact HPx|exact HP']. }
  assert (HL : length t = length t').
  { destruct HT as [-> _], HT' as [-> _]. rewrite (Permutation_length HPx). reflexivity. }
  clear - E HL. revert t' HL E. induction t as [|x t IH]; intros [|y t'] HL E; try discriminate; auto.
  cbn in E. injection E as -> E. f_equal. apply IH; auto.
Qed.
End Order.

(** A tail of a mapped list comes from a tail of the list. *)
Lemma IsTail_unmap {A B} (f : A -> B) (before : B -> B -> bool) k xs t :
  IsTail before k (map f xs) t ->
  exists t', t = map f t' /\ IsTail (fun a b => before (f a) (f b)) k xs t'.
Proof.
  intros (HL & HS & rest & HP & HR).
  apply Permutation_sym, Permutation_map_inv in HP. destruct HP as (l3 & E & HP3).
  symmetry in E. apply map_eq_app in E. destruct E as (t' & rest' & -> & E1 & E2).
  exists t'. split; [symmetry; exact E1|]. split; [|split].
  - rewrite <- (map_length f t'), E1, HL, map_length. reflexivity.
  - rewrite <- E1 in HS. clear - HS. unfold SortedBy in *. induction t' as [|x t' IH]; [constructor|].
    cbn in HS. inversion_clear HS as [|? ? HS1 HF]. constructor; [apply IH; exact HS1|].
    rewrite Forall_map in HF. exact HF.
  - exists rest'. split; [exact HP3|]. intros a b Ha Hb. apply HR.
    + rewrite <- E1. apply in_map. exact Ha.
    + rewrite <- E2. apply in_map. exact Hb.
Qed.
