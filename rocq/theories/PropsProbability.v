(** Property theorems C73: quantiles and tail means as functions of the probability. *)
From Coq Require Import List Arith ZArith QArith Qcanon.
From Verif Require Import Num NumFacts ModelTail ModelRolling ModelPSquare SpecStats SpecTail SpecPSquare SpecProbability ProofOrder ProofTailTop
  ProofProbability ProofPSquareEx ProofProbabilityEx.
Import ListNotations.
Local Open Scope nat_scope.

(** ** C73.  After every history of samples and extractions: a higher probability never gives a smaller tail quantile
    or (non-coherent) tail mean, a smaller share of the samples is never harder to serve, and the tail mean is at least
    as extreme as the quantile. *)
Theorem C73_tail : forall (K : Num), OrderedLaws K -> forall (lr : side) (ceil : car K -> nat), CeilSpec K ceil ->
  forall (H : HeapOps), HeapContract H -> forall (k : nat) (dA : car K) (dV : unit) (ops : list (tail_op (car K) unit)),
  0 < k -> WellFormed 0 ops ->
  exists s tl, tail_run H (tail_pred K lr) (tail_init k 0 dA dV) ops = Ok s /\ tail_result H (tail_pred K lr) s = Ok tl /\
  let quantile := tail_quantile_result K ceil lr (length (pushes ops)) tl in
  let mean := non_coherent_tail_mean_result K ceil lr (length (pushes ops)) tl in
  GrowsWithProbability K quantile /\ DefinedFurtherOut K lr quantile /\
  GrowsWithProbability K mean /\ DefinedFurtherOut K lr mean /\
  forall p m v, mean p = Ok m -> quantile p = Ok v -> MoreExtreme K lr v m = false.
Proof. exact prob_run. Qed.
Print Assumptions C73_tail.
Example C73_tail_ex : WellFormed 0 ex_ops /\
  shown (ex_with Right 3 (fun t => tail_quantile_result QcN Qc_ceil Right 4 t (Q2Qc (1#2)))) = Ok (3#1)%Q /\
  shown (ex_with Right 3 (fun t => tail_quantile_result QcN Qc_ceil Right 4 t (Q2Qc (3#4)))) = Ok (4#1)%Q /\
  shown (ex_with Right 3 (fun t => non_coherent_tail_mean_result QcN Qc_ceil Right 4 t (Q2Qc (1#2)))) = Ok (7#2)%Q /\
  shown (ex_with Right 3 (fun t => non_coherent_tail_mean_result QcN Qc_ceil Right 4 t (Q2Qc (3#4)))) = Ok (4#1)%Q.
Proof. exact (conj ex_wf grows_ex). Qed.
(** The same with weights that are not negative. *)
Theorem C73_weighted_tail : forall (K : Num), OrderedLaws K -> forall (lr : side) (H : HeapOps), HeapContract H ->
  forall (k : nat) (dA dV : car K) (ops : list (tail_op (car K) (car K))) (hist : list (car K * car K)),
  0 < k -> pushes ops = map (fun e => (fst e, [snd e])) hist ->
  Forall (fun e => leb K (zero K) (snd e) = true) hist -> ltb K (zero K) (TotalWeight K hist) = true ->
  exists s tl ws, tail_run H (tail_pred K lr) (tail_init k 1 dA dV) ops = Ok s /\ tail_result H (tail_pred K lr) s = Ok tl /\
    tail_variate_result H (tail_pred K lr) s 0 = Ok ws /\
  let quantile := weighted_tail_quantile_result K lr (TotalWeight K hist) tl ws in
  let mean := non_coherent_weighted_tail_mean_result K lr (TotalWeight K hist) tl ws in
  GrowsWithProbability K quantile /\ DefinedFurtherOut K lr quantile /\
  GrowsWithProbability K mean /\ DefinedFurtherOut K lr mean /\
  forall p m v, Inside01 K p -> mean p = Ok m -> quantile p = Ok v -> MoreExtreme K lr v m = false.
Proof. exact wprob_run. Qed.
Print Assumptions C73_weighted_tail.
Example C73_weighted_ex : pushes ex_wops = map (fun e => (fst e, [snd e])) ex_whist /\
  Forall (fun e => leb QcN (zero QcN) (snd e) = true) ex_whist /\ ltb QcN (zero QcN) (TotalWeight QcN ex_whist) = true.
Proof. exact (conj ex_wops_ok wgrows_ex). Qed.

(** The coherent tail mean does fall: as long as the rank stays the same and the quantile lies on the tail's side of
    zero, it falls strictly with every increase of the probability, on either side. *)
Theorem C73_coherent_refuted : forall (K : Num), OrderedLaws K -> forall (ceil : car K -> nat) (lr : side) (cnt : nat)
  (tl : list (car K)) (p q v a b : car K),
  ltb K p q = true -> tail_n K ceil lr cnt p = tail_n K ceil lr cnt q ->
  tail_quantile_result K ceil lr cnt tl p = Ok v -> MoreExtreme K lr v (zero K) = true ->
  coherent_tail_mean_result K ceil lr cnt tl p = Ok a -> coherent_tail_mean_result K ceil lr cnt tl q = Ok b ->
  ltb K b a = true.
Proof. exact coherent_falls. Qed.
Print Assumptions C73_coherent_refuted.
Example C73_coherent_ex : shown (ex_with Right 3 (fun t => coherent_tail_mean_result QcN Qc_ceil Right 4 t (Q2Qc (1#2)))) = Ok (7#2)%Q /\
  shown (ex_with Right 3 (fun t => coherent_tail_mean_result QcN Qc_ceil Right 4 t (Q2Qc (5#8)))) = Ok (53#16)%Q /\
  tail_n QcN Qc_ceil Right 4 (Q2Qc (1#2)) = tail_n QcN Qc_ceil Right 4 (Q2Qc (5#8)).
Proof. exact coherent_ex. Qed.

(** The extended P-square quantile with linear interpolation: never smaller for a higher probability. *)
Theorem C73_extended : forall (K : Num), OrderedLaws K -> forall (probs xs : list (car K)),
  Increasing K probs -> 2 * length probs + 3 <= length xs ->
  exists s rs, ext_run K probs xs = Ok s /\ ext_result K probs s = Ok rs /\
    GrowsWithProbability K (eps_quantile K Linear probs rs).
Proof. exact ext_grows. Qed.
Print Assumptions C73_extended.
Theorem C73_weighted_extended : forall (K : Num), OrderedLaws K -> forall (probs : list (car K)) (es : list (car K * car K)),
  Increasing K probs -> probs <> [] -> 2 * length probs + 3 <= length es ->
  Forall (fun e => ltb K (zero K) (snd e) = true) es ->
  exists s rs, wext_run K probs es = Ok s /\ ext_result K probs s = Ok rs /\
    GrowsWithProbability K (eps_quantile K Linear probs rs).
Proof. exact wext_grows. Qed.
Print Assumptions C73_weighted_extended.
(** With quadratic interpolation it can fall, even below every sample; this also shows that the hypotheses of
    [C73_extended] are met. *)
Theorem C73_quadratic_refuted : exists s rs a b, Increasing QcN ex_quarters /\
  ext_run QcN ex_quarters ex_steps = Ok s /\ ext_result QcN ex_quarters s = Ok rs /\
  Inside01 QcN (q2 1 4) /\ Inside01 QcN (q2 3 8) /\ leb QcN (q2 1 4) (q2 3 8) = true /\
  eps_quantile QcN Quadratic ex_quarters rs (q2 1 4) = Ok a /\ eps_quantile QcN Quadratic ex_quarters rs (q2 3 8) = Ok b /\
  ltb QcN b a = true /\ Forall (fun x => ltb QcN b x = true) ex_steps.
Proof. exact quadratic_falls. Qed.
Print Assumptions C73_quadratic_refuted.
(** Two P-square estimators fed with the same samples can cross. *)
Theorem C73_psquare_refuted : exists p p' xs s s' a b, Inside01 QcN p /\ Inside01 QcN p' /\ leb QcN p p' = true /\
  pq_run QcN p xs = Ok s /\ pq_run QcN p' xs = Ok s' /\ pq_result QcN s = Ok a /\ pq_result QcN s' = Ok b /\
  ltb QcN b a = true.
Proof. exact psquare_falls. Qed.
Print Assumptions C73_psquare_refuted.
