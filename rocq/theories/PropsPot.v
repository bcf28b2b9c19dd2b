(** Property theorems C36-C37: peaks over threshold. *)
From Coq Require Import List Arith QArith Qcanon Reals.
From Verif Require Import Num NumFacts ModelTail ModelPot SpecStats SpecTail SpecPot ProofOrder ProofTailTop
  ProofPot ProofPotAgain ProofPotMore ProofPotReal.
Import ListNotations.

(** ** C36.  Full claim: at every extraction of every history the triple is the documented function of the
    number, mean and variance of the samples beyond the threshold.  It holds for any samples followed by
    any number of extractions; it fails once a sample follows an extraction. *)
Theorem C36_value_partial : forall (K : Num), OrderedLaws K -> forall (pw : car K -> car K -> car K) (lr : side)
  (thr : car K) (xs : list (car K)) (j : nat),
  let ys := Exceedances K lr thr xs in
  ys <> [] -> Variance K ys <> zero K -> Xi K (Mean K ys) (Variance K ys) (Mirror K lr thr) <> zero K ->
  pot_out K pw lr (zero K) thr (map (fun x => PPush K x (one K)) xs ++ repeat (PExtract K) j)
  = repeat (Ok (PotParameters K pw (Mean K ys) (Variance K ys) (Mirror K lr thr)
                  (div K (ofnat K (length ys)) (ofnat K (length xs))))) j.
Proof. exact pot_first. Qed.
Print Assumptions C36_value_partial.
Theorem C36_value_nan : forall (K : Num), OrderedLaws K -> forall (pw : car K -> car K -> car K) (lr : side)
  (thr : car K) (xs : list (car K)) (j : nat),
  let ys := Exceedances K lr thr xs in
  ys = [] \/ Variance K ys = zero K \/
    Variance K ys <> zero K /\ Xi K (Mean K ys) (Variance K ys) (Mirror K lr thr) = zero K ->
  pot_out K pw lr (zero K) thr (map (fun x => PPush K x (one K)) xs ++ repeat (PExtract K) j) = repeat NotANumber j.
Proof. exact pot_nan. Qed.
Print Assumptions C36_value_nan.
Theorem C36_weighted_value_partial : forall (K : Num), OrderedLaws K -> forall (pw : car K -> car K -> car K) (lr : side)
  (thr : car K) (es : list (car K * car K)) (j : nat),
  let ys := WExceedances K lr thr es in
  TotalWeight K es <> zero K -> TotalWeight K ys <> zero K -> WVariance K ys <> zero K ->
  Xi K (WMean K ys) (WVariance K ys) (Mirror K lr thr) <> zero K ->
  wpot_out K pw lr (zero K) (zero K) thr (map (fun e => PPush K (fst e) (snd e)) es ++ repeat (PExtract K) j)
  = repeat (Ok (PotParameters K pw (WMean K ys) (WVariance K ys) (Mirror K lr thr)
                  (div K (TotalWeight K ys) (TotalWeight K es)))) j.
Proof. exact wpot_first. Qed.
Print Assumptions C36_weighted_value_partial.
(** Threshold probability [p]: the exceedances are the r most extreme samples, the threshold is the
    r-th, the share is p on the left and 1 - p on the right. *)
Theorem C36_prob_partial : forall (K : Num), OrderedLaws K -> forall (pw : car K -> car K -> car K) (lr : side)
  (ceil : car K -> nat), CeilSpec K ceil -> forall (H : HeapOps), HeapContract H ->
  forall (k : nat) (dA : car K) (dV : unit) (ops : list (tail_op (car K) unit)),
  (0 < k)%nat -> WellFormed 0 ops ->
  exists s tl, tail_run H (tail_pred K lr) (tail_init k 0 dA dV) ops = Ok s /\ tail_result H (tail_pred K lr) s = Ok tl /\
  let xs := map fst (pushes ops) in
  forall p r, Inside01 K p -> IsCeil K (mul K (ofnat K (length xs)) (TailShare K lr p)) r ->
    ((r < Nat.min k (length xs))%nat ->
       exists a v, MostExtreme (MoreExtreme K lr) xs r a /\ OrderStat (MoreExtreme K lr) xs r v /\
         let ys := map (Mirror K lr) a in
         (Variance K ys <> zero K -> Xi K (Mean K ys) (Variance K ys) (Mirror K lr v) <> zero K ->
          exists st,
          let fit := PotParameters K pw (Mean K ys) (Variance K ys) (Mirror K lr v) (TailShare K lr p) in
          ppot_extract K pw lr ceil (ppot_init K lr (zero K) p) (length xs) tl = Ok (st, Ok fit) /\
          ppot_extract K pw lr ceil st (length xs) tl = Ok (st, Ok fit))) /\
    ((Nat.min k (length xs) <= r)%nat ->
       exists st, ppot_extract K pw lr ceil (ppot_init K lr (zero K) p) (length xs) tl = Ok (st, NotANumber)).
Proof. exact ppot_run. Qed.
Print Assumptions C36_prob_partial.
Theorem C36_weighted_prob_partial : forall (K : Num), OrderedLaws K -> forall (pw : car K -> car K -> car K) (lr : side)
  (H : HeapOps), HeapContract H ->
  forall (k : nat) (dA dV : car K) (ops : list (tail_op (car K) (car K))) (hist : list (car K * car K)),
  (0 < k)%nat -> pushes ops = map (fun e => (fst e, [snd e])) hist ->
  exists s tl ws, tail_run H (tail_pred K lr) (tail_init k 1 dA dV) ops = Ok s /\ tail_result H (tail_pred K lr) s = Ok tl /\
    tail_variate_result H (tail_pred K lr) s 0 = Ok ws /\
  forall p, let W := TotalWeight K hist in let thr := mul K W (TailShare K lr p) in ltb K (zero K) thr = true ->
    ((exists a v, ReachesAt K (fun x y => MoreExtreme K lr (fst x) (fst y)) snd hist thr a v /\
        let ys := map (fun e => (Mirror K lr (fst e), snd e)) (a ++ [v]) in
        (WVariance K ys <> zero K -> Xi K (WMean K ys) (WVariance K ys) (Mirror K lr (fst v)) <> zero K ->
         exists st,
         let fit := PotParameters K pw (WMean K ys) (WVariance K ys) (Mirror K lr (fst v)) (TailShare K lr p) in
         wppot_extract K pw lr (ppot_init K lr (zero K) p) W tl ws = Ok (st, Ok fit) /\
         wppot_extract K pw lr st W tl ws = Ok (st, Ok fit)))
     \/ (ltb K (total K (fun x => x) ws) thr = true /\
         exists st, wppot_extract K pw lr (ppot_init K lr (zero K) p) W tl ws = Ok (st, NotANumber))).
Proof. exact wppot_run. Qed.
Print Assumptions C36_weighted_prob_partial.
(** Extract, push, extract: the second result is not the fit of all the samples (samples 1, 3, then 5). *)
Theorem C36_again_refuted : exists thr xs ys, let es := Exceedances QcN Right thr (xs ++ ys) in
  es <> [] /\ Variance QcN es <> zero QcN /\ Xi QcN (Mean QcN es) (Variance QcN es) thr <> zero QcN /\
  forall pw : Qc -> Qc -> Qc, exists fit1 fit2,
  pot_out QcN pw Right (zero QcN) thr (qpushes xs ++ [PExtract QcN] ++ qpushes ys ++ [PExtract QcN]) = [Ok fit1; Ok fit2] /\
  snd fit2 <> Xi QcN (Mean QcN es) (Variance QcN es) thr.
Proof. exact pot_again. Qed.
Print Assumptions C36_again_refuted.
(** An extraction before the first exceedance makes every later result NaN. *)
Theorem C36_early_refuted : forall (K : Num), OrderedLaws K -> forall (pw : car K -> car K -> car K) (lr : side)
  (thr : car K) (xs ys : list (car K)), Exceedances K lr thr xs = [] ->
  let push := map (fun x => PPush K x (one K)) in
  pot_out K pw lr (zero K) thr (push xs ++ PExtract K :: push ys ++ [PExtract K]) = [NotANumber; NotANumber].
Proof. exact pot_poison. Qed.
Print Assumptions C36_early_refuted.
(** What every extraction returns, in any history in which the first one finds an exceedance: [zs :: zss] are
    the samples pushed before each extraction.  The mean and variance left by the previous extraction are
    taken for sums (and on the left the mean with the wrong sign). *)
Theorem C36_every_extraction : forall (K : Num), OrderedLaws K -> forall (pw : car K -> car K -> car K) (lr : side)
  (thr : car K) (zs : list (car K)) (zss : list (list (car K))),
  Exceedances K lr thr zs <> [] -> Forall (fun zs => zs <> []) zss ->
  Refits K pw lr thr (zero K) (zero K) 0 0 (zs :: zss)
    (pot_out K pw lr (zero K) thr
       (concat (map (fun zs => map (fun x => PPush K x (one K)) zs ++ [PExtract K]) (zs :: zss)))).
Proof. exact pot_every. Qed.
Print Assumptions C36_every_extraction.
Theorem C36_weighted_every_extraction : forall (K : Num), OrderedLaws K -> forall (pw : car K -> car K -> car K) (lr : side)
  (thr : car K) (zs : list (car K * car K)) (zss : list (list (car K * car K))),
  WExceedances K lr thr zs <> [] ->
  Forall (fun zs => zs <> [] /\ Forall (fun e => ltb K (zero K) (snd e) = true) zs) (zs :: zss) ->
  WRefits K pw lr thr (zero K) (zero K) (zero K) (zero K) (zs :: zss)
    (wpot_out K pw lr (zero K) (zero K) thr
       (concat (map (fun zs => map (fun e => PPush K (fst e) (snd e)) zs ++ [PExtract K]) (zs :: zss)))).
Proof. exact wpot_every. Qed.
Print Assumptions C36_weighted_every_extraction.
(** Two extractions, the second after a sample below the threshold: different fits. *)
Example C36_every_ex : exists zs y, Exceedances QcN Left (Q2Qc 0) zs <> [] /\
  match pot_out QcN (fun x _ => x) Left (zero QcN) (Q2Qc 0)
    (concat (map (fun zs => map (fun x => PPush QcN x (one QcN)) zs ++ [PExtract QcN]) [zs; [y]])) with
  | [Ok (_, _, xi1); Ok (_, _, xi2)] => (this xi1, this xi2) = ((-19 # 16), (5 # 1))%Q
  | _ => False
  end.
Proof. exact again_ex. Qed.
(** The same with a threshold probability: the sums of the previous extraction are added in. *)
Theorem C36_prob_again_refuted : exists k p xs x tl tl', (0 < k)%nat /\ Inside01 QcN p /\
  IsTail (MoreExtreme QcN Right) k xs tl /\ IsTail (MoreExtreme QcN Right) k (xs ++ [x]) tl' /\
  forall pw : Qc -> Qc -> Qc, exists st fit1 st2 fit2 st0 fit0,
    ppot_extract QcN pw Right Qc_ceil (ppot_init QcN Right (zero QcN) p) (length xs) tl = Ok (st, Ok fit1) /\
    ppot_extract QcN pw Right Qc_ceil (ppot_op QcN st) (length (xs ++ [x])) tl' = Ok (st2, Ok fit2) /\
    ppot_extract QcN pw Right Qc_ceil (ppot_init QcN Right (zero QcN) p) (length (xs ++ [x])) tl' = Ok (st0, Ok fit0) /\
    snd fit2 <> snd fit0.
Proof. exact ppot_again. Qed.
Print Assumptions C36_prob_again_refuted.
(** Too few cached samples: the first extraction gives NaN, the next one (0, 0, 0). *)
Theorem C36_prob_nan_refuted : forall (K : Num), OrderedLaws K -> forall (pw : car K -> car K -> car K) (lr : side)
  (ceil : car K -> nat), CeilSpec K ceil -> forall (p : car K) (cnt : nat) (tl : list (car K)) (r : nat),
  IsCeil K (mul K (ofnat K cnt) (TailShare K lr p)) r -> (length tl <= r)%nat ->
  exists st, ppot_extract K pw lr ceil (ppot_init K lr (zero K) p) cnt tl = Ok (st, NotANumber) /\
    ppot_extract K pw lr ceil st cnt tl = Ok (st, Ok (zero K, zero K, zero K)).
Proof. exact ppot_nan_then_zero. Qed.
Print Assumptions C36_prob_nan_refuted.
(** At the end points the code reads before the range. *)
Theorem C36_prob_end_points_refuted : forall (K : Num), OrderedLaws K -> forall (pw : car K -> car K -> car K) (lr : side)
  (ceil : car K -> nat), CeilSpec K ceil -> forall (p : car K) (cnt : nat) (tl : list (car K)),
  TailShare K lr p = zero K -> tl <> [] ->
  ppot_extract K pw lr ceil (ppot_init K lr (zero K) p) cnt tl = UB.
Proof. exact ppot_level0. Qed.
Print Assumptions C36_prob_end_points_refuted.
(** The left tail replaces its own probability by 1 - p: the next extraction looks for the
    ceil(n (1 - p)) smallest samples, and gives NaN when they are not cached. *)
Theorem C36_prob_left_refuted : forall (K : Num), OrderedLaws K -> forall (pw : car K -> car K -> car K)
  (ceil : car K -> nat), CeilSpec K ceil -> forall (p : car K) (cnt : nat) (tl : list (car K)) st fit,
  ppot_extract K pw Left ceil (ppot_init K Left (zero K) p) cnt tl = Ok (st, Ok fit) ->
  forall cnt' tl' r, IsCeil K (mul K (ofnat K cnt') (sub K (one K) p)) r -> (length tl' <= r)%nat ->
  exists st', ppot_extract K pw Left ceil (ppot_op K st) cnt' tl' = Ok (st', NotANumber).
Proof. exact ppot_left_flip. Qed.
Print Assumptions C36_prob_left_refuted.

(** ** C37, over the reals, for the fit of any history that has one.  [TailShare] maps a probability to the
    share of its tail and back.  [s * tail mean] is an
    antiderivative of the quantile in the share [s] and vanishes with [s]: the tail mean is the
    average of the quantile over the tail. *)
Theorem C37_consistent : forall (lr : side) (thr : R) (xs : list R) (fit : R * R * R),
  pot_out RN Rpower lr 0%R thr (map (fun x => PPush RN x 1%R) xs ++ [PExtract RN]) = [Ok fit] ->
  let quantile := pot_quantile_result RN Rpower lr fit in
  let tail_mean := pot_tail_mean_result RN Rpower lr fit in
  let share := (ofnat RN (length (Exceedances RN lr thr xs)) / ofnat RN (length xs))%R in
  (forall p, TailShare RN lr p = share -> quantile p = thr) /\
  (forall p p', 0 < p -> p < p' -> p' < 1 -> quantile p < quantile p')%R /\
  (forall p, match lr with
             | Right => (quantile p < tail_mean p)%R
             | Left => (tail_mean p < quantile p)%R
             end) /\
  (forall s, (0 < s)%R -> derivable_pt_lim (fun s => s * tail_mean (TailShare RN lr s))%R s (quantile (TailShare RN lr s))) /\
  (forall e, (0 < e)%R -> exists d, (0 < d)%R /\ forall s, (0 < s < d)%R -> (Rabs (s * tail_mean (TailShare RN lr s)) < e)%R).
Proof. exact pot_consistent. Qed.
Print Assumptions C37_consistent.
(** For every fit, whatever the arithmetic and std::pow are. *)
Theorem C37_at_threshold : forall (K : Num), OrderedLaws K -> forall (pw : car K -> car K -> car K) (lr : side)
  (m v u share p : car K), Xi K m v u <> zero K -> TailShare K lr p = share ->
  pot_quantile_result K pw lr (PotParameters K pw m v u share) p = Mirror K lr u.
Proof. exact quantile_at_threshold. Qed.
Print Assumptions C37_at_threshold.
Example C37_ex : exists fit,
  pot_out RN Rpower Right 0%R 0%R (map (fun x => PPush RN x 1%R) [1; 3; 5]%R ++ [PExtract RN]) = [Ok fit].
Proof. exact pot_ex. Qed.
