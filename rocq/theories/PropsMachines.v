(** Property theorems C43, C44: extraction as an observation, serialization. *)
From Coq Require Import List Arith QArith Qcanon.
From Verif Require Import Num NumFacts ModelRolling ModelTail SpecTail ModelDensity ModelPSquare ModelPot
  ModelFramework SpecFramework ModelLibrary ModelSets ModelRollingSets
  SpecMachine ModelArchive ModelMachines ModelSetArchive ModelCircular ProofOrder ProofTailTop ProofDensityMed ProofFrameworkEx
  ProofMachines ProofMachines2 ProofMachines3 ProofSetArchive ProofCircular ProofMachinesEx.
Import ListNotations.

(** ** C43.  [Observation M P Q] (SpecMachine): in every session of [M] whose inputs satisfy [P],
    every extractor call that satisfies [Q] returns what it would have returned without the earlier
    extractor calls. *)
(** Sets of accumulators whose result() members are pure. *)
Theorem C43_sets : forall (L : Lib) (B : Behaviour L) (enum : fmap L -> fmap L) (W : bool) (fs : list (request L)),
  Observation (SetMachine L B enum W fs) anything anything.
Proof. exact set_observation. Qed.
Print Assumptions C43_sets.
(** density and weighted_density cache the histogram. *)
Theorem C43_density : forall (K : Num) (E : Type) (val amt : E -> car K) (den : nat -> car K -> car K)
  (lo hi : car K) (c b : nat) (e0 : E), Observation (DensityMachine K E val amt den lo hi c b e0) anything anything.
Proof. exact density_observation. Qed.
Print Assumptions C43_density.
Example C43_density_ex : pairs_seen (answer (mrun (mstart _) dens_cs) tt) = Some [(-2#1, 0#1); (0#1, 2#3); (2#1, 0#1); (4#1, 1#3)]%Q.
Proof. exact dens_session. Qed.
(** The P-square distributions cache the histogram, the median computed from it caches itself. *)
Theorem C43_distribution : forall (K : Num) (pairs : psq K -> list (car K * car K)) (push : psq K -> car K -> car K -> outcome (psq K))
  (q0 : psq K) (h0 : list (car K * car K)), Observation (DistributionMachine K pairs push q0 h0) anything anything.
Proof. exact distribution_observation. Qed.
Print Assumptions C43_distribution.
(** The tail sorts its indices when it is read; the samples it reports, the quantiles and the means
    do not depend on it, ... *)
Theorem C43_tail : forall (K : Num), OrderedLaws K -> forall (H : HeapOps), HeapContract H ->
  forall (ceil : car K -> nat) (lr : ModelTail.side) (k nv : nat), (0 < k)%nat ->
  Observation (TailMachine K H ceil lr k nv) (fun xs => Forall (fun e => length (snd e) = nv) xs) (no_variates K).
Proof. exact tail_observation. Qed.
Print Assumptions C43_tail.
(** ... the variates and the weights attached to the samples neither, if no sample occurs twice. *)
Theorem C43_variates_partial : forall (K : Num), OrderedLaws K -> forall (H : HeapOps), HeapContract H ->
  forall (ceil : car K -> nat) (lr : ModelTail.side) (k nv : nat), (0 < k)%nat ->
  Observation (TailMachine K H ceil lr k nv)
    (fun xs => Forall (fun e => length (snd e) = nv) xs /\ NoDup (map fst xs))
    (fun q => match q with QVariate j | QVariateMeans _ _ j _ => (j < nv)%nat | _ => True end).
Proof. exact tail_variates_observation. Qed.
Print Assumptions C43_variates_partial.
Theorem C43_weighted_tail_partial : forall (K : Num), OrderedLaws K -> forall (H : HeapOps), HeapContract H ->
  forall (lr : ModelTail.side) (k : nat), (0 < k)%nat ->
  Observation (WeightedTailMachine K H lr k) (fun xs => NoDup (map fst xs)) anything.
Proof. exact wtail_observation. Qed.
Print Assumptions C43_weighted_tail_partial.
Example C43_tail_ex : rows (answer (mrun (mstart _) tail_cs) (@QVariate QcN 0)) = Some [[2#1]; [9#1]; [1#1]]%Q /\
  Forall (fun e => length (snd e) = 1%nat) (inputs tail_cs) /\ NoDup (map fst (inputs tail_cs)).
Proof. exact tail_session. Qed.
(** With equal samples it matters: which of them is evicted depends on earlier extractions. *)
Theorem C43_ties_refuted : ~ Observation (TailMachine QcN sorting_heap Qc_ceil Right 2 1)
  (fun xs => Forall (fun e => length (snd e) = 1%nat) xs) (fun q => q = QVariate 0).
Proof. exact tail_ties_not_observation. Qed.
Print Assumptions C43_ties_refuted.
(** The running sum of the density median is never reset. *)
Theorem C43_density_median_refuted : ~ Observation
  (DensityMedianMachine QcN Qc (fun x => x) (fun _ => Q2Qc 1) (fun n _ => ofnat QcN n) ex_lo ex_hi 2 2 (Q2Qc 0)) anything anything.
Proof. exact dmed_not_observation. Qed.
Print Assumptions C43_density_median_refuted.
(** Every extraction of peaks over threshold overwrites its sums with the means. *)
Theorem C43_pot_refuted : forall pw : Qc -> Qc -> Qc, ~ Observation (PotMachine QcN pw Right (Q2Qc 0)) anything anything.
Proof. exact pot_not_observation. Qed.
Print Assumptions C43_pot_refuted.
Theorem C43_weighted_pot_refuted : forall pw : Qc -> Qc -> Qc, ~ Observation (WeightedPotMachine QcN pw Right (Q2Qc 0)) anything anything.
Proof. exact wpot_not_observation. Qed.
Print Assumptions C43_weighted_pot_refuted.
Theorem C43_pot_prob_refuted : forall pw : Qc -> Qc -> Qc,
  ~ Observation (PotProbMachine QcN pw Right sorting_heap Qc_ceil 6 (Q2Qc (1#2))) anything anything.
Proof. exact ppot_not_observation. Qed.
Print Assumptions C43_pot_prob_refuted.

(** ** C44.  [RoundTrip M save load P] (SpecMachine): after every session of [M] whose inputs satisfy
    [P], loading into a fresh set what was saved gives a set that answers, after every further session,
    like the original. *)
(** Sets of the accumulators of ModelSets and ModelRollingSets, as long as all of them have a
    serialize() member and nothing was dropped. *)
Theorem C44_sets_partial : forall (K : Num) (sqrt : car K -> car K) (N : nat) (enum : fmap Library -> fmap Library)
  (W : bool) (fs : list (request Library)),
  (forall t, In t (make_tuple Library enum W fs) -> serializer K N (fst t) <> None) ->
  RoundTrip (SetMachine Library (BasicSets K sqrt (RollingRest K N)) enum W fs)
    (save_set Library (BasicSets K sqrt (RollingRest K N)) (car K) (serializer K N))
    (load_set Library (BasicSets K sqrt (RollingRest K N)) (car K) (serializer K N))
    (no_drops Library (BasicSets K sqrt (RollingRest K N))).
Proof. exact library_roundtrip. Qed.
Print Assumptions C44_sets_partial.
Example C44_sets_ex : forall t, In t (make_tuple Library in_order false arch_fs) -> serializer QcN 2 (fst t) <> None.
Proof. exact arch_ok. Qed.
Example C44_sets_ex2 : option_map (fun s => map (fun t => shown (read Library ExB (push Library ExB s (sm 7)) t))
    [t_rolling_variance; t_variance; t_abstract_covariance]) arch_loaded
  = Some [Some (8#1); Some (5#1); Some (5#1)]%Q.
Proof. exact arch_session. Qed.
(** The accumulators of these sets that have no serialize(), so that no set containing one can be saved
    (moments of order 0 cannot be instantiated). *)
Theorem C44_unsaved : forall (K : Num) (N : nat) t, basic t || rolling t = true ->
  (serializer K N t = None <->
   In t [t_weighted_mean; t_lazy_weighted_variance; t_weighted_skewness; t_weighted_kurtosis; t_error_of_mean;
         t_error_of_immediate_mean; t_moment 0; t_weighted_moment 0; t_rolling_moment 0] \/
   exists v, t = t_weighted_mean_of_variates v).
Proof. exact unsaved. Qed.
Print Assumptions C44_unsaved.
(** The reference counts of droppable accumulators are not saved: a dropped accumulator goes on after
    loading. *)
Theorem C44_dropped_refuted : ~ RoundTrip (SetMachine Library ExB in_order false [dropped t_count])
  (save_set Library ExB Qc (serializer QcN 2)) (load_set Library ExB Qc (serializer QcN 2)) anything.
Proof. exact dropped_not_roundtrip. Qed.
Print Assumptions C44_dropped_refuted.
(** Densities and the median from them ([garbage]: the value of the member that is not initialised
    before the first extraction). *)
Theorem C44_density : forall (K : Num) (E : Type) (ce : codec (car K) E) (val amt : E -> car K) (den : nat -> car K -> car K)
  (lo hi : car K) (c b : nat) (e0 : E), Lawful ce anything ->
  RoundTrip (DensityMachine K E val amt den lo hi c b e0) (enc (dens_codec K E ce c b))
    (fun _ ar => load_all (dens_codec K E ce c b) ar) anything.
Proof. exact density_roundtrip. Qed.
Print Assumptions C44_density.
Theorem C44_density_median : forall (K : Num) (E : Type) (ce : codec (car K) E) (val amt : E -> car K) (den : nat -> car K -> car K)
  (lo hi : car K) (c b : nat) (e0 : E) (garbage : car K), Lawful ce anything ->
  RoundTrip (DensityMedianMachine K E val amt den lo hi c b e0) (enc (dmed_codec K E ce c b garbage))
    (fun _ ar => load_all (dmed_codec K E ce c b garbage) ar) anything.
Proof. exact dmed_roundtrip. Qed.
Print Assumptions C44_density_median.
Example C44_codec_ex : Lawful (c_num (T := Qc)) anything /\ Lawful (c_pair (c_num (T := Qc)) c_num) anything.
Proof. exact (conj (lawful_num Qc) (lawful_pair Qc _ _ _ _ (lawful_num Qc) (lawful_num Qc))). Qed.
Theorem C44_psquare : forall (K : Num) (Q O : Type) (push : psq K -> car K -> car K -> outcome (psq K)) (m0 : marks K)
  (res : psq K -> Q -> outcome O) (before after : list (car K)),
  RoundTrip (PSquareMachine K Q O push m0 res) (enc (psq_codec K before after))
    (fun _ ar => load_all (psq_codec K before after) ar) anything.
Proof. exact psquare_roundtrip. Qed.
Print Assumptions C44_psquare.
Theorem C44_distribution : forall (K : Num) (pairs : psq K -> list (car K * car K)) (push : psq K -> car K -> car K -> outcome (psq K))
  (q0 : psq K) (h0 : list (car K * car K)) (before after : list (car K)) (garbage : car K),
  RoundTrip (DistributionMachine K pairs push q0 h0) (enc (dist_codec K before after garbage))
    (fun _ ar => load_all (dist_codec K before after garbage) ar) anything.
Proof. exact distribution_roundtrip. Qed.
Print Assumptions C44_distribution.
(** Tails without tail variates. *)
Theorem C44_tail_partial : forall (K : Num) (H : HeapOps) (ceil : car K -> nat) (lr : ModelTail.side) (k : nat),
  RoundTrip (TailMachine K H ceil lr k 0) (enc (tail_codec K)) (fun _ ar => load_all (tail_codec K) ar) anything.
Proof. exact tail_roundtrip. Qed.
Print Assumptions C44_tail_partial.
Theorem C44_pot : forall (K : Num) (pw : car K -> car K -> car K) (lr : ModelTail.side) (thr : car K),
  RoundTrip (PotMachine K pw lr thr) (enc (pot_codec K)) (fun _ ar => load_all (pot_codec K) ar) anything.
Proof. exact pot_roundtrip. Qed.
Print Assumptions C44_pot.
Theorem C44_pot_prob : forall (K : Num) (pw : car K -> car K -> car K) (lr : ModelTail.side) (H : HeapOps) (ceil : car K -> nat) (k : nat) (prob : car K),
  RoundTrip (PotProbMachine K pw lr H ceil k prob) (enc (ppot_codec K)) (fun _ ar => load_all (ppot_codec K) ar) anything.
Proof. exact ppot_roundtrip. Qed.
Print Assumptions C44_pot_prob.
(** weighted_peaks_over_threshold does not save the weight above the threshold. *)
Theorem C44_weighted_pot_refuted : forall pw : Qc -> Qc -> Qc,
  ~ RoundTrip (WeightedPotMachine QcN pw Right (Q2Qc 0)) (enc (wpot_codec QcN (zero QcN)))
      (fun _ ar => load_all (wpot_codec QcN (zero QcN)) ar) anything.
Proof. exact wpot_not_roundtrip. Qed.
Print Assumptions C44_weighted_pot_refuted.
(** The circular buffer of the rolling window: in an archive that is a stream of bytes, ... *)
Theorem C44_ring : forall (T : Type) (N : nat),
  RoundTrip (RingMachine T N) (ring_save T (byte_stream T)) (ring_load T (byte_stream T)) anything.
Proof. exact ring_roundtrip. Qed.
Print Assumptions C44_ring.
(** ... and in an archive that keeps the two save_binary calls apart, as long as the buffer has not
    wrapped around; after that the single load_binary does not find what it needs. *)
Theorem C44_ring_blocks_partial : forall (T : Type) (N : nat),
  RoundTrip (RingMachine T N) (ring_save T (blocks T)) (ring_load T (blocks T)) (fun xs => (length xs <= N + 1)%nat).
Proof. exact ring_blocks_roundtrip. Qed.
Print Assumptions C44_ring_blocks_partial.
Theorem C44_ring_blocks_refuted :
  ~ RoundTrip (RingMachine nat 1) (ring_save nat (blocks nat)) (ring_load nat (blocks nat)) anything.
Proof. exact ring_blocks_not_roundtrip. Qed.
Print Assumptions C44_ring_blocks_refuted.
