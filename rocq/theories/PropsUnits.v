(** Property theorems C66: the unit in which weights are given. *)
From Coq Require Import List Arith QArith Qcanon.
From Verif Require Import Num NumFacts ModelDensity ModelTail ModelPSquare ModelPot SpecStats SpecDensity SpecTail SpecPSquare SpecUnits
  ProofTailTop ProofPSquareEx ProofUnits2 ProofUnits3.
Import ListNotations.

(** ** C66.  Multiplying all weights by a positive constant changes nothing in the weighted density ... *)
Theorem C66_density : forall (K : Num), OrderedLaws K -> forall c : car K, ltb K (zero K) c = true ->
  forall (lo hi : car K) (n b : nat) (s0 : car K) (ops : list (dens_op (car K * car K))), let es := dens_pushes ops in
  (1 <= n)%nat -> (1 <= b)%nat -> (n <= length es)%nat ->
  Forall (fun x => ltb K x lo = false /\ ltb K hi x = false) (map fst es) -> TotalWeight K es <> zero K ->
  exists s s', weighted_density_run K lo hi n b s0 ops = Ok s /\
    weighted_density_run K lo hi n b s0
      (map (fun o => match o with DPush e => DPush (fst e, mul K c (snd e)) | DExtract => DExtract end) ops) = Ok s' /\
    weighted_density_result K s' = weighted_density_result K s.
Proof. exact density_sc. Qed.
Print Assumptions C66_density.
Example C66_density_ex : let es := dens_pushes ex_dens_ops in (2 <= length es)%nat /\
  Forall (fun x => ltb QcN x (Q2Qc (-100)) = false /\ ltb QcN (Q2Qc 100) x = false) (map fst es) /\
  this (TotalWeight QcN es) = (23#6)%Q.
Proof. exact ex_dens_units. Qed.
(** ... in the quantile and the mean of a weighted tail, and in the first peaks-over-threshold fit to it ... *)
Theorem C66_tail : forall (K : Num), OrderedLaws K -> forall (H : HeapOps) (lr : side) (k : nat) (dA : car K)
  (ops : list (tail_op (car K) (car K))) (c : car K), ltb K (zero K) c = true ->
  forall s tl ws, tail_run H (tail_pred K lr) (tail_init k 1 dA (zero K)) ops = Ok s ->
  tail_result H (tail_pred K lr) s = Ok tl -> tail_variate_result H (tail_pred K lr) s 0 = Ok ws ->
  exists s' ws', tail_run H (tail_pred K lr) (tail_init k 1 dA (zero K))
      (map (fun o => match o with TPush x vs => TPush x (map (mul K c) vs) | TExtract => TExtract end) ops) = Ok s' /\
    tail_result H (tail_pred K lr) s' = Ok tl /\ tail_variate_result H (tail_pred K lr) s' 0 = Ok ws' /\ ws' = map (mul K c) ws /\
    forall W p,
      weighted_tail_quantile_result K lr (mul K c W) tl ws' p = weighted_tail_quantile_result K lr W tl ws p /\
      (ltb K (zero K) (mul K W (TailShare K lr p)) = true ->
        non_coherent_weighted_tail_mean_result K lr (mul K c W) tl ws' p = non_coherent_weighted_tail_mean_result K lr W tl ws p /\
        forall pw,
        obnd (wppot_extract K pw lr (ppot_init K lr (zero K) p) (mul K c W) tl ws') (fun r => Ok (snd r))
        = obnd (wppot_extract K pw lr (ppot_init K lr (zero K) p) W tl ws) (fun r => Ok (snd r))).
Proof. exact tail_units. Qed.
Print Assumptions C66_tail.
Example C66_tail_ex : ex_wwith Right 3 (fun tl ws => Ok (map this tl, map this ws)) = Ok ([5; 3; 1], [1; 1; 1#2])%Q.
Proof. exact ex_tail_units. Qed.
(** ... and in the means of its variates (relative ones if the tail mean is not zero). *)
Theorem C66_tail_means : forall (K : Num), OrderedLaws K -> forall (H : HeapOps) (lr : side) (k : nat) (dA : car K)
  (ops : list (tail_op (car K) (car K + list (car K)))) (c : car K), ltb K (zero K) c = true ->
  forall s tl ws tv, tail_run H (tail_pred K lr) (tail_init k 2 dA (inl (zero K))) ops = Ok s ->
  tail_result H (tail_pred K lr) s = Ok tl -> tail_variate_result H (tail_pred K lr) s 0 = Ok (map inl ws) ->
  tail_variate_result H (tail_pred K lr) s 1 = Ok (map inr tv) ->
  exists s' ws', tail_run H (tail_pred K lr) (tail_init k 2 dA (inl (zero K)))
      (map (fun o => match o with
                     | TPush x vs => TPush x (map (fun v => match v with inl w => inl (mul K c w) | inr l => inr l end) vs)
                     | TExtract => TExtract
                     end) ops) = Ok s' /\
    tail_result H (tail_pred K lr) s' = Ok tl /\ tail_variate_result H (tail_pred K lr) s' 0 = Ok (map inl ws') /\
    tail_variate_result H (tail_pred K lr) s' 1 = Ok (map inr tv) /\
    forall fuel W p, ltb K (zero K) (mul K W (TailShare K lr p)) = true ->
      weighted_tail_variate_means_result K lr fuel false (mul K c W) tl ws' tv p
        = weighted_tail_variate_means_result K lr fuel false W tl ws tv p /\
      (non_coherent_weighted_tail_mean_result K lr W tl ws p <> Ok (zero K) ->
       weighted_tail_variate_means_result K lr fuel true (mul K c W) tl ws' tv p
        = weighted_tail_variate_means_result K lr fuel true W tl ws tv p).
Proof. exact tail_means_units. Qed.
Print Assumptions C66_tail_means.
(** ... nor in the first fit to the peaks over a fixed threshold ... *)
Theorem C66_peaks_partial : forall (K : Num), OrderedLaws K -> forall c : car K, ltb K (zero K) c = true ->
  forall (lr : side) (pw : car K -> car K -> car K) (thr : car K) (es : list (car K * car K)), TotalWeight K es <> zero K ->
  let push := map (fun e => PPush K (fst e) (snd e)) in
  wpot_out K pw lr (zero K) (zero K) thr (push (scale_weights K c es) ++ [PExtract K])
  = wpot_out K pw lr (zero K) (zero K) thr (push es ++ [PExtract K]).
Proof. exact wpot_sc. Qed.
Print Assumptions C66_peaks_partial.
(** ... but it does in a second fit after more samples ... *)
Theorem C66_peaks_again_refuted : forall pw : Qc -> Qc -> Qc, exists (thr c : Qc) (es fs : list (Qc * Qc)),
  ltb QcN (zero QcN) c = true /\ Forall (fun e => ltb QcN (zero QcN) (snd e) = true) (es ++ fs) /\
  let push := map (fun e => PPush QcN (fst e) (snd e)) in
  wpot_out QcN pw Right (zero QcN) (zero QcN) thr
    (push (scale_weights QcN c es) ++ [PExtract QcN] ++ push (scale_weights QcN c fs) ++ [PExtract QcN])
  <> wpot_out QcN pw Right (zero QcN) (zero QcN) thr (push es ++ [PExtract QcN] ++ push fs ++ [PExtract QcN]).
Proof. exact pot_units_refuted. Qed.
Print Assumptions C66_peaks_again_refuted.
(** ... and in all the weighted P-square estimators: *)
Theorem C66_p_square_refuted : exists (p c : Qc) (es : list (Qc * Qc)) s s' r r',
  Inside01 QcN p /\ ltb QcN (zero QcN) c = true /\ Forall (fun e => ltb QcN (zero QcN) (snd e) = true) es /\
  wpq_run QcN p es = Ok s /\ pq_result QcN s = Ok r /\
  wpq_run QcN p (scale_weights QcN c es) = Ok s' /\ pq_result QcN s' = Ok r' /\ r <> r'.
Proof. exact wpq_units_refuted. Qed.
Print Assumptions C66_p_square_refuted.
(** while the weights add up to at most one (as normalised weights do) only the outermost markers ever
    follow the samples: the quantile estimate is the third smallest of the first five samples, for every p
    and whatever comes later, *)
Theorem C66_frozen_quantile_refuted : forall (K : Num), OrderedLaws K -> forall (p : car K) (first rest : list (car K * car K)),
  length first = 5%nat -> Forall (fun e => ltb K (snd e) (zero K) = false) (first ++ rest) ->
  ltb K (one K) (TotalWeight K (first ++ rest)) = false ->
  exists s r, wpq_run K p (first ++ rest) = Ok s /\ pq_result K s = Ok r /\ Ranked K 2 (map fst first) r.
Proof. exact wpq_frozen. Qed.
Print Assumptions C66_frozen_quantile_refuted.
(** so every history of positive weights has this estimate in a large enough unit of weight, *)
Theorem C66_any_history_refuted : forall (K : Num), OrderedLaws K -> forall (p : car K) (first rest : list (car K * car K)),
  length first = 5%nat -> Forall (fun e => ltb K (zero K) (snd e) = true) (first ++ rest) ->
  exists c0, ltb K (zero K) c0 = true /\ forall c, ltb K (zero K) c = true -> ltb K c0 c = false ->
  exists s r, wpq_run K p (scale_weights K c (first ++ rest)) = Ok s /\ pq_result K s = Ok r /\ Ranked K 2 (map fst first) r.
Proof. exact wpq_unit_dependent. Qed.
Print Assumptions C66_any_history_refuted.
(** and the other two estimators report order statistics of the samples of their initialisation phase. *)
Theorem C66_frozen_extended_refuted : forall (K : Num), OrderedLaws K -> forall (probs : list (car K)) (first rest : list (car K * car K)),
  probs <> [] -> length first = (2 * length probs + 3)%nat -> Forall (fun e => ltb K (snd e) (zero K) = false) (first ++ rest) ->
  ltb K (one K) (TotalWeight K (first ++ rest)) = false ->
  exists s rs, wext_run K probs (first ++ rest) = Ok s /\ ext_result K probs s = Ok rs /\ length rs = length probs /\
    forall i, (i < length probs)%nat -> exists v, nth_error rs i = Some v /\ Ranked K (2 * (i + 1)) (map fst first) v.
Proof. exact wext_frozen. Qed.
Print Assumptions C66_frozen_extended_refuted.
Theorem C66_frozen_distribution_refuted : forall (K : Num), OrderedLaws K -> forall (b : nat) (first rest : list (car K * car K)),
  (1 <= b)%nat -> length first = (b + 1)%nat -> Forall (fun e => ltb K (snd e) (zero K) = false) (first ++ rest) ->
  ltb K (one K) (TotalWeight K (first ++ rest)) = false ->
  exists s, wcd_run K b (first ++ rest) = Ok s /\
    forall i, (1 <= i)%nat -> (i < b)%nat -> exists v y, nth_error (wcd_pairs K s) i = Some (v, y) /\ Ranked K i (map fst first) v.
Proof. exact wcd_frozen. Qed.
Print Assumptions C66_frozen_distribution_refuted.
(** The same ten samples with weights of one, and of one hundredth. *)
Example C66_ex : show1 (obnd (wpq_run QcN (q2 1 2) ex_history) (pq_result QcN)) = Ok (14017#324)%Q /\
  show1 (obnd (wpq_run QcN (q2 1 2) (scale_weights QcN (q2 1 100) ex_history)) (pq_result QcN)) = Ok (3#1)%Q /\
  Forall (fun e => ltb QcN (zero QcN) (snd e) = true) ex_history.
Proof. exact (conj ex_units_one (conj ex_units_hundredth ex_units_pos)). Qed.
