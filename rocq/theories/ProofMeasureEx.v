(** Histories that give the same weight to every value: examples, and statistics that tell them apart. *)
From Coq Require Import List Arith Bool Lia QArith Qcanon.
From Verif Require Import Num NumFacts ModelBasic ModelTail ModelDensity ModelPSquare SpecStats SpecTail SpecMeasure ProofBasic ProofBasic2 ProofBasic3 ProofOrder ProofTailTop ProofDensityMed ProofDensityTop ProofPSquareEx ProofMeasure.
Import ListNotations.

(** It is enough to look at the values that occur. *)
Lemma same_check (h g : list (Qc * Qc)) : Forall (fun v => Qeq_bool (WeightAt QcN (same QcN) h v) (WeightAt QcN (same QcN) g v) = true) (map fst (h ++ g)) ->
  SameWeights QcN (same QcN) h g.
Proof.
  intros F v. rewrite Forall_forall in F.
  assert (D : In v (map fst (h ++ g)) \/ ~ In v (map fst (h ++ g))) by (destruct (in_dec Qc_eq_dec v (map fst (h ++ g))); auto).
  destruct D as [I | N].
  - apply Qc_is_canon. apply Qeq_bool_iff. now apply F.
  - assert (Z : forall l, (forall e, In e l -> In (fst e) (map fst (h ++ g))) -> WeightAt QcN (same QcN) l v = zero QcN).
    { intros l Hl. unfold WeightAt. rewrite filter_none; [reflexivity |]. intros e He. destruct (same QcN (fst e) v) eqn:Q; [| reflexivity].
      exfalso. apply N. rewrite <- (proj1 (same_eq QcN QcN_ordered _ _) Q). now apply Hl. }
    rewrite !Z; [reflexivity | |]; intros e He; apply in_map, in_or_app; auto.
Qed.

Definition whole : list (Qc * Qc) := [(q 3, q 1); (q 1, q 1); (q 3, q 1)].
Definition parted : list (Qc * Qc) := [(q 1, q2 1 2); (q 3, q 2); (q 7, q 0); (q 1, q2 1 2)].
Lemma parted_same : SameWeights QcN (same QcN) whole parted.
Proof. apply same_check. repeat (apply Forall_cons; [vm_compute; reflexivity |]). apply Forall_nil. Qed.
Definition halved : list (Qc * Qc) := [(q 1, q2 1 2); (q 3, q 2); (q 1, q2 1 2)].
Lemma halved_same : SameWeights QcN (same QcN) whole halved /\ PrefixWeightsNonzero QcN whole /\ PrefixWeightsNonzero QcN halved.
Proof.
  split; [apply same_check; repeat (apply Forall_cons; [vm_compute; reflexivity |]); apply Forall_nil |].
  split; apply Qc_positive_weights; repeat (apply Forall_cons; [reflexivity |]); apply Forall_nil.
Qed.

Definition wops (h : list (Qc * Qc)) : list (tail_op Qc Qc) := map (fun e => TPush (fst e) [snd e]) h.
Definition dops (h : list (Qc * Qc)) : list (dens_op (Qc * Qc)) := map (fun e => DPush e) h.
Definition wq_of k h p := shown (wafter QcN sorting_heap Left k (q 0) (q 0) (wops h) (fun tl ws => weighted_tail_quantile_result QcN Left (TotalWeight QcN h) tl ws p)).
Definition wm_of k h p := shown (wafter QcN sorting_heap Left k (q 0) (q 0) (wops h) (fun tl ws => non_coherent_weighted_tail_mean_result QcN Left (TotalWeight QcN h) tl ws p)).
Definition four : list (Qc * Qc) := [(q 1, q 1); (q 2, q 1); (q 2, q 1); (q 5, q 2)].
Definition three : list (Qc * Qc) := [(q 1, q 1); (q 2, q 2); (q 5, q 2)].
Lemma four_three : SameWeights QcN (same QcN) four three.
Proof. apply same_check. repeat (apply Forall_cons; [vm_compute; reflexivity |]). apply Forall_nil. Qed.
Lemma quantile_ex : wq_of 4 four (q2 2 5) = Ok 2%Q /\ wq_of 3 three (q2 2 5) = Ok 2%Q.
Proof. split; vm_compute; reflexivity. Qed.
Lemma tail_mean_differs : SameWeights QcN (same QcN) four three /\ wm_of 4 four (q2 2 5) = Ok (3#2)%Q /\ wm_of 4 three (q2 2 5) = Ok (5#3)%Q.
Proof. split; [exact four_three |]. split; vm_compute; reflexivity. Qed.
Lemma quantile_differs : SameWeights QcN (same QcN) four three /\ wq_of 2 four (q2 3 5) = NotANumber /\ wq_of 2 three (q2 3 5) = Ok 2%Q.
Proof. split; [exact four_three |]. split; vm_compute; reflexivity. Qed.
Definition hist_of c h := match weighted_density_run QcN ex_lo ex_hi c 2 (q 0) (dops h) with Ok s => show2 (weighted_density_result QcN s) | _ => [] end.
Lemma histogram_differs : SameWeights QcN (same QcN) four three /\ hist_of 3 four <> hist_of 3 three /\ hist_of 3 four <> [] /\ hist_of 3 three <> [].
Proof. split; [exact four_three |]. repeat split; vm_compute; discriminate. Qed.
Definition six : list (Qc * Qc) := [(q 1, q 1); (q 2, q 1); (q 3, q 1); (q 4, q 2); (q 9, q 1); (q 5, q 1)].
Definition seven : list (Qc * Qc) := [(q 1, q 1); (q 2, q 1); (q 3, q 1); (q 4, q 1); (q 4, q 1); (q 9, q 1); (q 5, q 1)].
Definition psq_of h := show1 (obnd (wpq_run QcN (q2 1 2) h) (pq_result QcN)).
Lemma psquare_differs : SameWeights QcN (same QcN) six seven /\ psq_of six = Ok (11#3)%Q /\ psq_of seven = Ok 3%Q.
Proof.
  split; [apply same_check; repeat (apply Forall_cons; [vm_compute; reflexivity |]); apply Forall_nil |]. split; vm_compute; reflexivity.
Qed.
Definition first2 : list (Qc * Qc) := [(q 1, q 1); (q 5, q 2); (q 2, q 1); (q 2, q 1)].
Definition first2' : list (Qc * Qc) := [(q 1, q 1); (q 5, q 2); (q 2, q 2)].
Lemma histogram_ex : SameWeights QcN (same QcN) first2 first2' /\ firstn 2 first2 = firstn 2 first2' /\ hist_of 2 first2 = [((-1)%Q, 0%Q); (1%Q, (3#5)%Q); (3%Q, 0%Q); (5%Q, (2#5)%Q)].
Proof.
  split; [apply same_check; repeat (apply Forall_cons; [vm_compute; reflexivity |]); apply Forall_nil |]. split; [reflexivity | vm_compute; reflexivity].
Qed.
Lemma same_pair_check : SameWeights QcN (same_pair QcN) [((q 1, q 2), q 1); ((q 3, q 5), q 2)] [((q 3, q 5), q 2); ((q 1, q 2), q 1)].
Proof. intros v. unfold WeightAt, TotalWeight. cbn [filter fst]. destruct (same_pair QcN (q 1, q 2) v), (same_pair QcN (q 3, q 5) v); apply Qc_is_canon; vm_compute; reflexivity. Qed.
