(** Property theorems C25-C28: histograms and the histogram median. *)
From Coq Require Import List Arith QArith Qcanon.
From Verif Require Import Num NumFacts ModelDensity SpecStats SpecDensity ProofDensityMed ProofDensityTop.
Import ListNotations.

(** ** C25, C26: the histogram reported after any history (pushes and extractions in any order)
    whose samples fill the cache: the positions are those of equal bins between the extremes of the
    first [c] samples, the fraction of bin [i] is the number of samples in it over the count. *)
Theorem C25_fractions : forall (K : Num), OrderedLaws K ->
  forall (lo hi : car K) (c b : nat) (s0 : car K) (ops : list (dens_op (car K))), let xs := dens_pushes ops in
  (1 <= c)%nat -> (1 <= b)%nat -> (c <= length xs)%nat ->
  Forall (fun x => ltb K x lo = false /\ ltb K hi x = false) xs ->
  exists s m M, density_run K lo hi c b s0 ops = Ok s /\
    IsMin K (firstn c xs) m /\ IsMax K (firstn c xs) M /\
    density_result K s =
      map (fun i => (BinPosition K m M b i,
                     div K (ofnat K (length (filter (InBin K m M b i) xs))) (ofnat K (length xs))))
          (seq 0 (b + 2)).
Proof. exact density_top. Qed.
Print Assumptions C25_fractions.
(** These fractions are not negative and add up to 1 ... *)
Theorem C25_sum : forall (K : Num), OrderedLaws K ->
  forall (m M : car K) (b : nat) (xs : list (car K)), ltb K M m = false -> (1 <= b)%nat -> xs <> [] ->
  total K snd (map (fun i => (BinPosition K m M b i,
                     div K (ofnat K (length (filter (InBin K m M b i) xs))) (ofnat K (length xs))))
          (seq 0 (b + 2))) = one K /\
  (forall i, ltb K (div K (ofnat K (length (filter (InBin K m M b i) xs))) (ofnat K (length xs))) (zero K) = false).
Proof. exact density_sum1. Qed.
Print Assumptions C25_sum.
(** ... because every sample is in exactly one bin ... *)
Theorem C26_one_bin : forall (K : Num), OrderedLaws K ->
  forall (m M : car K) (b : nat) (x : car K), ltb K M m = false -> (1 <= b)%nat ->
  exists i, (i <= b + 1)%nat /\ InBin K m M b i x = true /\
    forall j, (j <= b + 1)%nat -> InBin K m M b j x = true -> j = i.
Proof. exact one_bin. Qed.
Print Assumptions C26_one_bin.
(** ... and the positions increase in equal steps from the minimum to the maximum. *)
Theorem C26_positions : forall (K : Num), OrderedLaws K ->
  forall (m M : car K) (b : nat), ltb K m M = true -> (1 <= b)%nat ->
  BinPosition K m M b 1 = m /\ BinPosition K m M b (b + 1) = M /\
  (forall i j, (i < j)%nat -> ltb K (BinPosition K m M b i) (BinPosition K m M b j) = true) /\
  (forall i, sub K (BinPosition K m M b (i + 1)) (BinPosition K m M b i) = div K (sub K M m) (ofnat K b)).
Proof. exact positions. Qed.
Print Assumptions C26_positions.
Example C25_ex : show_hist (density_run QcN ex_lo ex_hi 2 2 (Q2Qc 0) ex_dops) = Ok [(-2#1,1#5); (0#1,2#5); (2#1,0#1); (4#1,2#5)]
  /\ Forall (fun x => ltb QcN x ex_lo = false /\ ltb QcN ex_hi x = false) (dens_pushes ex_dops).
Proof. exact ex_density. Qed.
(** The largest of the cached samples is counted as overflow: position[b+1] is the maximum itself. *)
Example C26_max_is_overflow : show_hist (density_run QcN ex_lo ex_hi 3 2 (Q2Qc 0) [DPush (Q2Qc 0); DPush (Q2Qc 4); DPush (Q2Qc 3)])
  = Ok [(-2#1,0#1); (0#1,1#3); (2#1,1#3); (4#1,1#3)].
Proof. exact ex_max_overflow. Qed.
(** Cache size 0 (outside the hypotheses of C25): the bins are never placed. *)
Example C26_cache0 : show_hist (density_run QcN ex_lo ex_hi 0 2 (Q2Qc 0) [DPush (Q2Qc 1); DPush (Q2Qc 4); DPush (Q2Qc 3)])
  = Ok [(0#1,0#1); (0#1,0#1); (0#1,0#1); (0#1,1#1)].
Proof. exact ex_cache0. Qed.

(** ** C27 *)
Theorem C27_weighted : forall (K : Num), OrderedLaws K ->
  forall (lo hi : car K) (c b : nat) (s0 : car K) (ops : list (dens_op (car K * car K))), let es := dens_pushes ops in
  (1 <= c)%nat -> (1 <= b)%nat -> (c <= length es)%nat ->
  Forall (fun x => ltb K x lo = false /\ ltb K hi x = false) (map fst es) ->
  exists s m M, weighted_density_run K lo hi c b s0 ops = Ok s /\
    IsMin K (map fst (firstn c es)) m /\ IsMax K (map fst (firstn c es)) M /\
    weighted_density_result K s =
      map (fun i => (BinPosition K m M b i,
                     div K (TotalWeight K (filter (fun e => InBin K m M b i (fst e)) es)) (TotalWeight K es)))
          (seq 0 (b + 2)) /\
    (TotalWeight K es <> zero K -> total K snd (weighted_density_result K s) = one K).
Proof. exact wdensity_top. Qed.
Print Assumptions C27_weighted.
Theorem C27_unit_weights : forall (K : Num), OrderedLaws K ->
  forall (lo hi : car K) (c b : nat) (s0 : car K) (ops : list (dens_op (car K))), let xs := dens_pushes ops in
  (1 <= c)%nat -> (1 <= b)%nat -> (c <= length xs)%nat ->
  Forall (fun x => ltb K x lo = false /\ ltb K hi x = false) xs ->
  exists s w, density_run K lo hi c b s0 ops = Ok s /\
    weighted_density_run K lo hi c b s0 (map (fun o => match o with DPush x => DPush (x, one K) | DExtract => DExtract end) ops) = Ok w /\
    weighted_density_result K w = density_result K s.
Proof. exact wdensity_unit. Qed.
Print Assumptions C27_unit_weights.

(** ** C28.  For both densities ([val], [amt], [den] as in the two instances).  Proved: the first
    extraction (and repetitions of it without a push in between) when the median bin is not the
    overflow bin.  Missing: all the rest, which is refuted below. *)
Theorem C28_first_partial : forall (K : Num), OrderedLaws K ->
  forall (E : Type) (val amt : E -> car K) (den : nat -> car K -> car K) (lo hi : car K) (c b : nat),
  (1 <= c)%nat -> (1 <= b)%nat -> forall (e0 : E) (es : list E) (k : nat), (c <= length es)%nat ->
  Forall (fun x => ltb K x lo = false /\ ltb K hi x = false) (map val es) ->
  den (length es) (total K amt es) = total K amt es -> total K amt es <> zero K ->
  exists h i, MedianBin K h i /\
    (exists s, dens_run K E val amt den lo hi c b (dens_init K E lo hi c b (zero K) e0) (map DPush es) = Ok s
               /\ dens_result K E den s = h) /\
    ((i < b + 1)%nat -> exists d m md p y q z,
        nth_error h i = Some (p, y) /\ nth_error h (S i) = Some (q, z) /\ ltb K (zero K) y = true /\
        md = (let over := div K (sub K (total K snd (firstn (S i) h)) (div K (one K) (add K (one K) (one K)))) y in
              add K (mul K p over) (mul K q (sub K (one K) over))) /\
        ltb K md p = false /\ ltb K q md = false /\
        dmed_run K E val amt den lo hi c b (zero K) e0 (map MPush es ++ repeat MExtract (S k)) = Ok (d, m, repeat md (S k))) /\
    ((b + 1 <= i)%nat -> dmed_run K E val amt den lo hi c b (zero K) e0 (map MPush es ++ [MExtract]) = UB).
Proof. exact median_first. Qed.
Print Assumptions C28_first_partial.
(** The running sum is never reset: an earlier extraction changes a later result, ... *)
Theorem C28_interleaving_refuted :
  outs (ex_median 2 2 (Q2Qc 0) [MPush (Q2Qc 0); MPush (Q2Qc 4); MPush (Q2Qc 1); MExtract]) = Ok [3#2] /\
  outs (ex_median 2 2 (Q2Qc 0) [MPush (Q2Qc 0); MPush (Q2Qc 4); MExtract; MPush (Q2Qc 1); MExtract]) = Ok [2#1; 1#2].
Proof. exact median_again. Qed.
Print Assumptions C28_interleaving_refuted.
(** ... or makes it undefined (the iterator is decremented before the beginning). *)
Theorem C28_interleaving_ub_refuted :
  outs (ex_median 4 2 (Q2Qc 0) [MPush (Q2Qc 0); MPush (Q2Qc 0); MPush (Q2Qc 0); MPush (Q2Qc 4); MPush (Q2Qc 1); MExtract]) = Ok [5#4] /\
  outs (ex_median 4 2 (Q2Qc 0) [MPush (Q2Qc 0); MPush (Q2Qc 0); MPush (Q2Qc 0); MPush (Q2Qc 4); MExtract; MPush (Q2Qc 1); MExtract]) = UB.
Proof. exact median_again_ub. Qed.
Print Assumptions C28_interleaving_ub_refuted.
(** Extraction before the cache is full runs past the end of the histogram. *)
Theorem C28_early_refuted : forall (K : Num), OrderedLaws K ->
  forall (E : Type) (val amt : E -> car K) (den : nat -> car K -> car K) (lo hi : car K) (c b : nat),
  (1 <= c)%nat -> (1 <= b)%nat -> forall (e0 : E) (es : list E), (1 <= length es)%nat -> (length es < c)%nat ->
  den (length es) (total K amt es) <> zero K ->
  dmed_run K E val amt den lo hi c b (zero K) e0 (map MPush es ++ [MExtract]) = UB.
Proof. exact median_early. Qed.
Print Assumptions C28_early_refuted.
(** When all samples are equal they are all in the overflow bin, whose right end does not exist. *)
Theorem C28_constant_refuted : forall (K : Num), OrderedLaws K ->
  forall (E : Type) (val amt : E -> car K) (den : nat -> car K -> car K) (lo hi : car K) (c b : nat),
  (1 <= c)%nat -> (1 <= b)%nat -> forall (e0 : E) (es : list E) (x : car K), (c <= length es)%nat ->
  Forall (fun x => ltb K x lo = false /\ ltb K hi x = false) (map val es) ->
  den (length es) (total K amt es) = total K amt es -> total K amt es <> zero K ->
  (forall e, In e es -> val e = x) ->
  dmed_run K E val amt den lo hi c b (zero K) e0 (map MPush es ++ [MExtract]) = UB.
Proof. exact median_constant. Qed.
Print Assumptions C28_constant_refuted.
