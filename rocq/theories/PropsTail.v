(** Property theorems C18-C24: the tail family. *)
From Coq Require Import List Arith QArith Qcanon.
From Verif Require Import Num NumFacts ModelTail ModelHeap SpecStats SpecTail ProofOrder ProofTailTop ProofHeap.
Import ListNotations.

(** A conforming implementation of the heap algorithms exists, and so does std::ceil on the
    rationals: the hypotheses of the theorems below are satisfiable. *)
Theorem C18_heap_exists : HeapContract sorting_heap.
Proof. exact sorting_heap_ok. Qed.
Print Assumptions C18_heap_exists.
(** ... and so does the binary heap in an array that standard libraries use. *)
Theorem C18_binary_heap : HeapContract binary_heap.
Proof. exact binary_heap_ok. Qed.
Print Assumptions C18_binary_heap.
Example C18_ex_binary_heap : (fold_left (fun l x => push_heap_bin Nat.ltb (l ++ [x])) [3; 1; 4; 1; 5; 9; 2; 6] [] = [9; 6; 5; 4; 1; 3; 2; 1]
  /\ pop_heap_bin Nat.ltb [9; 6; 5; 4; 1; 3; 2; 1] = [6; 4; 5; 1; 1; 3; 2; 9]
  /\ sort_heap_bin Nat.ltb [9; 6; 5; 4; 1; 3; 2; 1] = [1; 1; 2; 3; 4; 5; 6; 9])%nat.
Proof. vm_compute. repeat split. Qed.
Theorem C21_ceil_exists : CeilSpec QcN Qc_ceil.
Proof. exact Qc_ceil_spec. Qed.
Print Assumptions C21_ceil_exists.

(** ** C18, for every strict weak order, every history of pushes and extractions *)
Theorem C18_tail : forall (H : HeapOps), HeapContract H ->
  forall (A V : Type) (pred : A -> A -> bool), StrictWeak pred ->
  forall (k nv : nat) (dA : A) (dV : V) (ops : list (tail_op A V)), (0 < k)%nat -> WellFormed nv ops ->
  exists s t, tail_run H pred (tail_init k nv dA dV) ops = Ok s /\
    tail_result H pred s = Ok t /\ IsTail pred k (map fst (pushes ops)) t.
Proof. exact tail_samples_spec. Qed.
Print Assumptions C18_tail.
(** The tails of numbers: [left] keeps the smallest samples in increasing order, [right] the
    largest in decreasing order. *)
Theorem C18_sides : forall (K : Num), OrderedLaws K -> forall (H : HeapOps), HeapContract H ->
  forall (V : Type) (lr : side) (k nv : nat) (dA : car K) (dV : V) (ops : list (tail_op (car K) V)),
  (0 < k)%nat -> WellFormed nv ops ->
  exists s t, tail_run H (tail_pred K lr) (tail_init k nv dA dV) ops = Ok s /\
    tail_result H (tail_pred K lr) s = Ok t /\ IsTail (MoreExtreme K lr) k (map fst (pushes ops)) t.
Proof. exact tail_sides. Qed.
Print Assumptions C18_sides.
Example C18_ex : shownl (ex_with Right 3 (fun t => Ok t)) = Ok [4#1; 3#1; 2#1].
Proof. exact ex_tail_right. Qed.
(** A cache size of 0 is accepted by the constructor; the first sample is then undefined behaviour. *)
Theorem C18_zero_cache_refuted : forall (H : HeapOps) (A V : Type) (pred : A -> A -> bool) (nv : nat)
  (dA : A) (dV : V) (x : A) (vs : list V),
  tail_run H pred (tail_init 0 nv dA dV) [TPush x vs] = UB.
Proof. exact zero_cache_ub. Qed.
Print Assumptions C18_zero_cache_refuted.

(** ** C19: the cached entries [es] are entries of the history; the tail shows their samples and
    the j-th tail variate shows their j-th variates, in the same order *)
Theorem C19_variates : forall (H : HeapOps), HeapContract H ->
  forall (A V : Type) (pred : A -> A -> bool), StrictWeak pred ->
  forall (k nv : nat) (dA : A) (dV : V) (ops : list (tail_op A V)), (0 < k)%nat -> WellFormed nv ops ->
  exists s es, tail_run H pred (tail_init k nv dA dV) ops = Ok s /\
    IsTail (fun a b => pred (fst a) (fst b)) k (pushes ops) es /\
    tail_result H pred s = Ok (map fst es) /\
    forall j, (j < nv)%nat -> exists vals, tail_variate_result H pred s j = Ok vals /\
      map Some vals = map (fun e => nth_error (snd e) j) es.
Proof. exact tail_spec. Qed.
Print Assumptions C19_variates.
Example C19_ex : obind (ex_vwith Right 2 (fun _ tv => Ok tv)) (fun tv => Ok (map (map this) tv)) = Ok [[2#1;3#1]; [1#1;2#1]].
Proof. exact ex_variates. Qed.

(** ** C20 *)
Theorem C20_interleaving : forall (H : HeapOps), HeapContract H ->
  forall (A V : Type) (pred : A -> A -> bool), StrictWeak pred ->
  (forall a b, pred a b = false -> pred b a = false -> a = b) ->
  forall (k nv : nat) (dA : A) (dV : V) (ops ops' : list (tail_op A V)), (0 < k)%nat -> WellFormed nv ops ->
  pushes ops' = pushes ops ->
  exists s s' t, tail_run H pred (tail_init k nv dA dV) ops = Ok s /\
    tail_run H pred (tail_init k nv dA dV) ops' = Ok s' /\
    tail_result H pred s = Ok t /\ tail_result H pred s' = Ok t.
Proof. exact interleaving. Qed.
Print Assumptions C20_interleaving.
Theorem C20_interleaving_variates : forall (H : HeapOps), HeapContract H ->
  forall (A V : Type) (pred : A -> A -> bool), StrictWeak pred ->
  (forall a b, pred a b = false -> pred b a = false -> a = b) ->
  forall (k nv : nat) (dA : A) (dV : V) (ops ops' : list (tail_op A V)), (0 < k)%nat -> WellFormed nv ops ->
  pushes ops' = pushes ops -> NoDup (map fst (pushes ops)) ->
  exists s s', tail_run H pred (tail_init k nv dA dV) ops = Ok s /\
    tail_run H pred (tail_init k nv dA dV) ops' = Ok s' /\
    forall j, (j < nv)%nat -> exists vals, tail_variate_result H pred s j = Ok vals /\ tail_variate_result H pred s' j = Ok vals.
Proof. exact interleaving_variates. Qed.
Print Assumptions C20_interleaving_variates.
(** Extracting leaves a state that shows the same tail and the same variates. *)
Theorem C20_twice : forall (H : HeapOps) (A V : Type) (pred : A -> A -> bool) (s s' : tail_state A V),
  tail_run H pred s [TExtract] = Ok s' ->
  tail_result H pred s' = tail_result H pred s /\
  forall j, tail_variate_result H pred s' j = tail_variate_result H pred s j.
Proof. exact twice. Qed.
Print Assumptions C20_twice.
Example C20_ex : StrictWeak (tail_pred QcN Right) /\
  forall a b, tail_pred QcN Right a b = false -> tail_pred QcN Right b a = false -> a = b.
Proof. exact ex_antisym. Qed.

(** ** C21 *)
Theorem C21_quantile : forall (K : Num), OrderedLaws K -> forall (H : HeapOps), HeapContract H ->
  forall (lr : side) (ceil : car K -> nat), CeilSpec K ceil ->
  forall (k : nat) (dA : car K) (dV : unit) (ops : list (tail_op (car K) unit)),
  (0 < k)%nat -> WellFormed 0 ops ->
  exists s tl, tail_run H (tail_pred K lr) (tail_init k 0 dA dV) ops = Ok s /\
  tail_result H (tail_pred K lr) s = Ok tl /\
  let xs := map fst (pushes ops) in
  forall p r, Inside01 K p -> IsCeil K (mul K (ofnat K (length xs)) (TailShare K lr p)) r ->
    ((r < Nat.min k (length xs))%nat ->
       exists v, tail_quantile_result K ceil lr (length xs) tl p = Ok v /\ OrderStat (MoreExtreme K lr) xs r v) /\
    ((Nat.min k (length xs) <= r)%nat -> tail_quantile_result K ceil lr (length xs) tl p = NotANumber).
Proof. exact quantile_run. Qed.
Print Assumptions C21_quantile.
Example C21_ex : shown (ex_with Left 3 (fun t => tail_quantile_result QcN Qc_ceil Left 4 t (Q2Qc (1#2)))) = Ok (2#1)
  /\ WellFormed 0 ex_ops /\ Inside01 QcN (Q2Qc (1#2)) /\ IsCeil QcN (mul QcN (ofnat QcN 4) (Q2Qc (1#2))) 2.
Proof. exact ex_quantile_all. Qed.
(** "When the cache is large enough": it must hold one sample more than the rank.  A cache that
    holds exactly the r samples needed gives NaN. *)
Theorem C21_exact_cache_refuted :
  exists (k r : nat) (ops : list (tail_op Qc unit)) (p : Qc) s tl,
    (0 < k)%nat /\ WellFormed 0 ops /\ Inside01 QcN p /\
    tail_run sorting_heap (tail_pred QcN Left) (tail_init k 0 (Q2Qc 0) tt) ops = Ok s /\
    tail_result sorting_heap (tail_pred QcN Left) s = Ok tl /\
    let n := length (pushes ops) in
    IsCeil QcN (mul QcN (ofnat QcN n) p) r /\ (r <= Nat.min k n)%nat /\ length tl = r /\
    tail_quantile_result QcN Qc_ceil Left n tl p = NotANumber.
Proof. exact ex_exact_cache. Qed.
Print Assumptions C21_exact_cache_refuted.
(** At the end points (p = 0 on the left, p = 1 on the right) the code reads before the range. *)
Theorem C21_end_points_refuted : forall (K : Num), OrderedLaws K ->
  forall (lr : side) (ceil : car K -> nat), CeilSpec K ceil ->
  forall (cnt : nat) (tl : list (car K)) (p : car K), TailShare K lr p = zero K -> tl <> [] ->
  tail_quantile_result K ceil lr cnt tl p = UB.
Proof. exact quantile_level0. Qed.
Print Assumptions C21_end_points_refuted.

(** ** C22 *)
Theorem C22_non_coherent : forall (K : Num), OrderedLaws K -> forall (H : HeapOps), HeapContract H ->
  forall (lr : side) (ceil : car K -> nat), CeilSpec K ceil ->
  forall (k : nat) (dA : car K) (dV : unit) (ops : list (tail_op (car K) unit)),
  (0 < k)%nat -> WellFormed 0 ops ->
  exists s tl, tail_run H (tail_pred K lr) (tail_init k 0 dA dV) ops = Ok s /\
  tail_result H (tail_pred K lr) s = Ok tl /\
  let xs := map fst (pushes ops) in
  forall p r, Inside01 K p -> xs <> [] -> IsCeil K (mul K (ofnat K (length xs)) (TailShare K lr p)) r ->
    ((r <= Nat.min k (length xs))%nat ->
       exists a, MostExtreme (MoreExtreme K lr) xs r a /\
         non_coherent_tail_mean_result K ceil lr (length xs) tl p = Ok (Mean K a)) /\
    ((Nat.min k (length xs) < r)%nat -> non_coherent_tail_mean_result K ceil lr (length xs) tl p = NotANumber).
Proof. exact nctm_run. Qed.
Print Assumptions C22_non_coherent.
Theorem C22_coherent_right : forall (K : Num), OrderedLaws K -> forall (H : HeapOps), HeapContract H ->
  forall (ceil : car K -> nat), CeilSpec K ceil ->
  forall (k : nat) (dA : car K) (dV : unit) (ops : list (tail_op (car K) unit)),
  (0 < k)%nat -> WellFormed 0 ops ->
  exists s tl, tail_run H (tail_pred K Right) (tail_init k 0 dA dV) ops = Ok s /\
  tail_result H (tail_pred K Right) s = Ok tl /\
  let xs := map fst (pushes ops) in
  forall p r, Inside01 K p -> IsCeil K (mul K (ofnat K (length xs)) (sub K (one K) p)) r ->
    (r < Nat.min k (length xs))%nat ->
       exists a q, MostExtreme (MoreExtreme K Right) xs r a /\ OrderStat (MoreExtreme K Right) xs r q /\
         coherent_tail_mean_result K ceil Right (length xs) tl p
         = Ok (add K (Mean K a) (mul K (div K q (ofnat K r))
                  (sub K (sub K (one K) p) (div K (ofnat K r) (ofnat K (length xs)))))).
Proof. exact (fun K HO H HC => ctm_run K HO H HC Right). Qed.
Print Assumptions C22_coherent_right.
(** On the left the code adds quantile / count to the documented value (a misplaced
    parenthesis), so it is wrong whenever that quantile is not 0. *)
Theorem C22_coherent_left_refuted : forall (K : Num), OrderedLaws K -> forall (H : HeapOps), HeapContract H ->
  forall (ceil : car K -> nat), CeilSpec K ceil ->
  forall (k : nat) (dA : car K) (dV : unit) (ops : list (tail_op (car K) unit)),
  (0 < k)%nat -> WellFormed 0 ops ->
  exists s tl, tail_run H (tail_pred K Left) (tail_init k 0 dA dV) ops = Ok s /\
  tail_result H (tail_pred K Left) s = Ok tl /\
  let xs := map fst (pushes ops) in
  forall p r, Inside01 K p -> IsCeil K (mul K (ofnat K (length xs)) p) r ->
    (r < Nat.min k (length xs))%nat ->
       exists a q, MostExtreme (MoreExtreme K Left) xs r a /\ OrderStat (MoreExtreme K Left) xs r q /\
         coherent_tail_mean_result K ceil Left (length xs) tl p
         = Ok (add K (add K (Mean K a) (mul K (div K q (ofnat K r)) (sub K p (div K (ofnat K r) (ofnat K (length xs))))))
                   (div K q (ofnat K (length xs)))).
Proof. exact ctm_left_run. Qed.
Print Assumptions C22_coherent_left_refuted.
Example C22_ex : shown (ex_with Right 3 (fun t => non_coherent_tail_mean_result QcN Qc_ceil Right 4 t (Q2Qc (1#2)))) = Ok (7#2).
Proof. exact ex_nctm. Qed.
(** Documented value for 1 2 3 4 at p = 1/2: 3/2. *)
Example C22_ex_left : shown (ex_with Left 3 (fun t => coherent_tail_mean_result QcN Qc_ceil Left 4 t (Q2Qc (1#2)))) = Ok (2#1).
Proof. exact ex_ctm_left. Qed.

(** ** C23 *)
Theorem C23_variate_means : forall (K : Num), OrderedLaws K -> forall (H : HeapOps), HeapContract H ->
  forall (lr : side) (ceil : car K -> nat), CeilSpec K ceil ->
  forall (k d : nat) (dA : car K) (dV : list (car K)) (ops : list (tail_op (car K) (list (car K))))
    (hist : list (car K * list (car K))),
  (0 < k)%nat -> pushes ops = map (fun e => (fst e, [snd e])) hist ->
  Forall (fun e => length (snd e) = d) hist ->
  exists s tl tv, tail_run H (tail_pred K lr) (tail_init k 1 dA dV) ops = Ok s /\
    tail_result H (tail_pred K lr) s = Ok tl /\ tail_variate_result H (tail_pred K lr) s 0 = Ok tv /\
  forall p r, Inside01 K p -> IsCeil K (mul K (ofnat K (length hist)) (TailShare K lr p)) r ->
    (r < Nat.min k (length hist))%nat ->
    exists a, MostExtreme (fun x y => MoreExtreme K lr (fst x) (fst y)) hist r a /\
      non_coherent_tail_mean_result K ceil lr (length hist) tl p = Ok (average K fst a) /\
      (exists ms, tail_variate_means_result K ceil lr false (length hist) tl tv p = Ok ms /\ length ms = d /\
         forall i, (i < d)%nat -> nth i ms (zero K) = average K (fun e => nth i (snd e) (zero K)) a) /\
      (total K fst a <> zero K ->
       exists ms, tail_variate_means_result K ceil lr true (length hist) tl tv p = Ok ms /\ length ms = d /\
         (forall i, (i < d)%nat -> nth i ms (zero K)
            = div K (average K (fun e => nth i (snd e) (zero K)) a) (average K fst a)) /\
         (Forall (fun e => total K (fun x => x) (snd e) = fst e) hist -> total K (fun x => x) ms = one K)).
Proof. exact tvm_run. Qed.
Print Assumptions C23_variate_means.
Example C23_ex : shownl (ex_vwith Right 3 (fun tl tv => tail_variate_means_result QcN Qc_ceil Right true 3 tl tv (Q2Qc (1#3)))) = Ok [3#8; 5#8]
  /\ pushes ex_vops = map (fun e => (fst e, [snd e])) ex_vhist /\ Forall (fun e => length (snd e) = 2%nat) ex_vhist.
Proof. exact ex_tvm_all. Qed.

(** ** C24 *)
Theorem C24_quantile_mean : forall (K : Num), OrderedLaws K -> forall (H : HeapOps), HeapContract H ->
  forall (lr : side) (k : nat) (dA dV : car K) (ops : list (tail_op (car K) (car K))) (hist : list (car K * car K)),
  (0 < k)%nat -> pushes ops = map (fun e => (fst e, [snd e])) hist ->
  exists s tl ws, tail_run H (tail_pred K lr) (tail_init k 1 dA dV) ops = Ok s /\
    tail_result H (tail_pred K lr) s = Ok tl /\ tail_variate_result H (tail_pred K lr) s 0 = Ok ws /\
  forall p, let thr := mul K (TotalWeight K hist) (TailShare K lr p) in ltb K (zero K) thr = true ->
    ((exists a v, ReachesAt K (fun x y => MoreExtreme K lr (fst x) (fst y)) snd hist thr a v /\
        weighted_tail_quantile_result K lr (TotalWeight K hist) tl ws p = Ok (fst v) /\
        non_coherent_weighted_tail_mean_result K lr (TotalWeight K hist) tl ws p = Ok (WMean K (a ++ [v])))
     \/ (weighted_tail_quantile_result K lr (TotalWeight K hist) tl ws p = NotANumber /\
         non_coherent_weighted_tail_mean_result K lr (TotalWeight K hist) tl ws p = NotANumber /\
         ltb K (total K (fun x => x) ws) thr = true)).
Proof. exact wq_run. Qed.
Print Assumptions C24_quantile_mean.
Theorem C24_variate_means : forall (K : Num), OrderedLaws K -> forall (H : HeapOps), HeapContract H ->
  forall (lr : side) (k d : nat) (dA : car K) (dV : car K + list (car K))
    (ops : list (tail_op (car K) (car K + list (car K)))) (hist : list (car K * car K * list (car K))),
  (0 < k)%nat -> pushes ops = map (fun e => (fst (fst e), [inl (snd (fst e)); inr (snd e)])) hist ->
  Forall (fun e => length (snd e) = d) hist ->
  let wtot := total K (fun e => snd (fst e)) hist in
  exists s tl ws tv, tail_run H (tail_pred K lr) (tail_init k 2 dA dV) ops = Ok s /\
    tail_result H (tail_pred K lr) s = Ok tl /\
    tail_variate_result H (tail_pred K lr) s 0 = Ok (map inl ws) /\
    tail_variate_result H (tail_pred K lr) s 1 = Ok (map inr tv) /\
  forall p, let thr := mul K wtot (TailShare K lr p) in ltb K (zero K) thr = true ->
    (ltb K (total K (fun x => x) ws) thr = false ->
      exists a v, ReachesAt K (fun x y => MoreExtreme K lr (fst (fst x)) (fst (fst y))) (fun e => snd (fst e)) hist thr a v /\
      (exists ms, (forall fuel, (k < fuel)%nat ->
          weighted_tail_variate_means_result K lr fuel false wtot tl ws tv p = Some (Ok ms)) /\ length ms = d /\
        forall i, (i < d)%nat -> nth i ms (zero K) =
          div K (total K (fun e => mul K (nth i (snd e) (zero K)) (snd (fst e))) (a ++ [v]))
                (total K (fun e => snd (fst e)) (a ++ [v]))) /\
      (total K (fun e => mul K (fst (fst e)) (snd (fst e))) (a ++ [v]) <> zero K ->
       exists ms, (forall fuel, (k < fuel)%nat ->
          weighted_tail_variate_means_result K lr fuel true wtot tl ws tv p = Some (Ok ms)) /\ length ms = d /\
        forall i, (i < d)%nat -> nth i ms (zero K) =
          div K (total K (fun e => mul K (nth i (snd e) (zero K)) (snd (fst e))) (a ++ [v]))
                (total K (fun e => mul K (fst (fst e)) (snd (fst e))) (a ++ [v])))) /\
    ((forall n, ltb K (total K (fun x => x) (firstn n ws)) thr = true) ->
      forall fuel relative, weighted_tail_variate_means_result K lr fuel relative wtot tl ws tv p = None).
Proof. exact wvm_run. Qed.
Print Assumptions C24_variate_means.
Example C24_ex : shown (ex_wwith Right 3 (fun tl ws => weighted_tail_quantile_result QcN Right (TotalWeight QcN ex_whist) tl ws (Q2Qc (1#2)))) = Ok (3#1)
  /\ pushes ex_wops = map (fun e => (fst e, [snd e])) ex_whist.
Proof. exact ex_wq_all. Qed.
(** weighted_tail_variate_means never returns when the cached weights do not reach the level. *)
Theorem C24_termination_refuted :
  exists (k : nat) (ops : list (tail_op Qc (Qc + list Qc))) (hist : list (Qc * Qc * list Qc)) (p : Qc) s tl ws tv,
    (0 < k)%nat /\ pushes ops = map (fun e => (fst (fst e), [inl (snd (fst e)); inr (snd e)])) hist /\ Inside01 QcN p /\
    tail_run sorting_heap (tail_pred QcN Left) (tail_init k 2 (Q2Qc 0) (inl (Q2Qc 0))) ops = Ok s /\
    tail_result sorting_heap (tail_pred QcN Left) s = Ok tl /\
    tail_variate_result sorting_heap (tail_pred QcN Left) s 0 = Ok (map inl ws) /\
    tail_variate_result sorting_heap (tail_pred QcN Left) s 1 = Ok (map inr tv) /\
    forall fuel relative,
      weighted_tail_variate_means_result QcN Left fuel relative (total QcN (fun e => snd (fst e)) hist) tl ws tv p = None.
Proof. exact ex_diverge. Qed.
Print Assumptions C24_termination_refuted.
(** A level of 0 makes weighted_tail_quantile read before the range. *)
Theorem C24_end_points_refuted : forall (K : Num), OrderedLaws K -> forall (lr : side) (wtot : car K) (tl ws : list (car K)) (p : car K),
  TailShare K lr p = zero K -> weighted_tail_quantile_result K lr wtot tl ws p = UB.
Proof. exact wquantile_level0. Qed.
Print Assumptions C24_end_points_refuted.
