(** Property theorems C81: tail statistics as measures of risk. *)
From Coq Require Import List QArith Qcanon.
From Verif Require Import Num ModelTail ModelPSquare SpecStats SpecTail SpecUnitWeights SpecRisk ProofOrder ProofTailTop ProofPSquareEx ProofRiskTop.
Import ListNotations.

(** Raising samples never lowers a tail quantile or a tail mean: with the same number of samples and the same cache
    size both are NaN, both undefined, or the one of the raised samples is not below the other. *)
Theorem C81_monotone : forall (K : Num), OrderedLaws K -> forall (H : HeapOps), HeapContract H ->
  forall (lr : side) (ceil : car K -> nat) (k : nat) (dA : car K) (ops ops' : list (tail_op (car K) unit)),
  (0 < k)%nat -> WellFormed 0 ops -> WellFormed 0 ops' -> Below K (samples ops) (samples ops') ->
  forall p, let le := fun v w => leb K v w = true in let report := fun o f => after K H lr k dA o (fun n tl => f n tl p) in
    alike le (report ops (tail_quantile_result K ceil lr)) (report ops' (tail_quantile_result K ceil lr)) /\
    alike le (report ops (non_coherent_tail_mean_result K ceil lr)) (report ops' (non_coherent_tail_mean_result K ceil lr)) /\
    (Inside01 K p -> alike le (report ops (coherent_tail_mean_result K ceil lr)) (report ops' (coherent_tail_mean_result K ceil lr))).
Proof. exact risk_monotone. Qed.
Print Assumptions C81_monotone.

(** The tail mean of sums is no worse than the sum of the tail means: always for the non-coherent one, and in the right
    tail for the coherent one. *)
Theorem C81_subadditive : forall (K : Num), OrderedLaws K -> forall (H : HeapOps), HeapContract H ->
  forall (lr : side) (ceil : car K -> nat) (k : nat) (dA : car K) (ops ops' ops'' : list (tail_op (car K) unit)),
  (0 < k)%nat -> WellFormed 0 ops -> WellFormed 0 ops' -> WellFormed 0 ops'' -> Sums K (samples ops) (samples ops') (samples ops'') ->
  forall p, let report := fun o f => after K H lr k dA o (fun n tl => f n tl p) in
    alike3 (NoWorse K lr) (report ops (non_coherent_tail_mean_result K ceil lr)) (report ops' (non_coherent_tail_mean_result K ceil lr)) (report ops'' (non_coherent_tail_mean_result K ceil lr)) /\
    (lr = Right -> CeilSpec K ceil -> Inside01 K p ->
     alike3 (NoWorse K lr) (report ops (coherent_tail_mean_result K ceil lr)) (report ops' (coherent_tail_mean_result K ceil lr)) (report ops'' (coherent_tail_mean_result K ceil lr))).
Proof. exact risk_subadditive. Qed.
Print Assumptions C81_subadditive.
(** Losses of 4, 0, 1, 0 and of 0, 4, 1, 0: the hypotheses of both theorems hold of these histories. *)
Example C81_ex : WellFormed 0 (losses first_loss) /\ WellFormed 0 (losses other_loss) /\ WellFormed 0 (losses joint_loss) /\
  Sums QcN (samples (losses first_loss)) (samples (losses other_loss)) (samples (losses joint_loss)) /\ Below QcN (samples (losses first_loss)) (samples (losses joint_loss)).
Proof. exact joint_is. Qed.

(** A quantile is not subadditive: each of the two losses has the quantile 1, together they have 4 (the tail means are
    5/2, 5/2 and 4). *)
Theorem C81_quantile_refuted :
  quoted Right first_loss (tail_quantile_result QcN Qc_ceil Right) = Ok (1#1) /\ quoted Right other_loss (tail_quantile_result QcN Qc_ceil Right) = Ok (1#1) /\
  quoted Right joint_loss (tail_quantile_result QcN Qc_ceil Right) = Ok (4#1) /\
  quoted Right first_loss (non_coherent_tail_mean_result QcN Qc_ceil Right) = Ok (5#2) /\ quoted Right other_loss (non_coherent_tail_mean_result QcN Qc_ceil Right) = Ok (5#2) /\
  quoted Right joint_loss (non_coherent_tail_mean_result QcN Qc_ceil Right) = Ok (4#1).
Proof. exact risk_quantile_values. Qed.
Print Assumptions C81_quantile_refuted.

(** Finding: the coherent tail mean of the left tail is not coherent: twice 3/4 against 5/4 for the sum. *)
Theorem C81_coherent_left_refuted : Sums QcN (samples (losses low1)) (samples (losses low2)) (samples (losses low12)) /\
  quoted Left low1 (coherent_tail_mean_result QcN Qc_ceil Left) = Ok (3#4) /\ quoted Left low2 (coherent_tail_mean_result QcN Qc_ceil Left) = Ok (3#4) /\
  quoted Left low12 (coherent_tail_mean_result QcN Qc_ceil Left) = Ok (5#4).
Proof. exact low_values. Qed.
Print Assumptions C81_coherent_left_refuted.

(** Finding: the P-square median is not monotone: raising one sample from 3 to 7 lowers it from 7/2 to 3. *)
Theorem C81_psquare_refuted :
  show1 (obnd (pq_run QcN (q2 1 2) (map q [4; 0; 3; 5; 1; 3; 6]%Z)) (pq_result QcN)) = Ok (7#2)%Q /\
  show1 (obnd (pq_run QcN (q2 1 2) (map q [4; 0; 3; 5; 1; 7; 6]%Z)) (pq_result QcN)) = Ok 3%Q.
Proof. exact raised_median. Qed.
Print Assumptions C81_psquare_refuted.
