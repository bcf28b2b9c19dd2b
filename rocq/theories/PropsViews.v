(** Property C68. *)
From Coq Require Import List Arith Bool Permutation QArith Qcanon.
From Verif Require Import Num SpecRolling SpecTail ModelRolling ModelDensity ModelPSquare ModelTail ModelViews ProofTailTop ProofViews.
Import ListNotations.

(** C68: a result obtained from a set does not change with what is done to the set later.  For results that are ranges
    this holds only in part. *)

(** The histogram of density and of weighted_density: a range kept from the extraction shown shows, at any later moment, what
    the last extraction from the set returned; the samples pushed since then do not change it. *)
Theorem C68_density_partial : forall (K : Num) (lo hi : car K) (c b : nat) (s0 : car K),
  (forall ops1 ops2 s, density_run K lo hi c b s0 (ops1 ++ DExtract :: ops2) = Ok s ->
    exists before after s1, DExtract :: ops2 = before ++ DExtract :: after /\
      (forall o, In o after -> exists x, o = DPush x) /\
      density_run K lo hi c b s0 (ops1 ++ before) = Ok s1 /\ dens_view s = density_result K s1) /\
  (forall ops1 ops2 s, weighted_density_run K lo hi c b s0 (ops1 ++ DExtract :: ops2) = Ok s ->
    exists before after s1, DExtract :: ops2 = before ++ DExtract :: after /\
      (forall o, In o after -> exists x, o = DPush x) /\
      weighted_density_run K lo hi c b s0 (ops1 ++ before) = Ok s1 /\ dens_view s = weighted_density_result K s1).
Proof. exact density_kept. Qed.
Print Assumptions C68_density_partial.

Theorem C68_density_refuted : exists s1 s,
  density_run QcN (Q2Qc (-100)) (Q2Qc 100) 2 1 (Q2Qc 0) [DPush (Q2Qc 0); DPush (Q2Qc 2); DExtract] = Ok s1 /\
  density_run QcN (Q2Qc (-100)) (Q2Qc 100) 2 1 (Q2Qc 0) ([DPush (Q2Qc 0); DPush (Q2Qc 2); DExtract] ++ [DPush (Q2Qc 1); DExtract]) = Ok s /\
  dens_view s <> density_result QcN s1.
Proof. exact density_changes. Qed.
Print Assumptions C68_density_refuted.

(** The cumulative distribution, plain and weighted: the same, where an extraction of the median that reads the distribution counts as
    an extraction from it. *)
Theorem C68_distribution_partial : forall (K : Num) (b : nat) h0 ops1 ops2,
  (forall c m out, cd_session K (cd_pairs K) (cd_push K b) (cd_start K b) h0 (ops1 ++ CExtract K :: ops2) = Ok (c, m, out) ->
    exists before look after c1 m1 out1, CExtract K :: ops2 = before ++ look :: after /\
      (look = CExtract K \/ look = CMedian K) /\ (forall o, In o after -> exists x w, o = CPush K x w) /\
      cd_session K (cd_pairs K) (cd_push K b) (cd_start K b) h0 (ops1 ++ before) = Ok (c1, m1, out1) /\
      cdist_view c = cs_hist K (cdist_extract K (cd_pairs K) c1)) /\
  (forall c m out, cd_session K (wcd_pairs K) (wcd_push K b) (wcd_start K b) h0 (ops1 ++ CExtract K :: ops2) = Ok (c, m, out) ->
    exists before look after c1 m1 out1, CExtract K :: ops2 = before ++ look :: after /\
      (look = CExtract K \/ look = CMedian K) /\ (forall o, In o after -> exists x w, o = CPush K x w) /\
      cd_session K (wcd_pairs K) (wcd_push K b) (wcd_start K b) h0 (ops1 ++ before) = Ok (c1, m1, out1) /\
      cdist_view c = cs_hist K (cdist_extract K (wcd_pairs K) c1)).
Proof. exact distribution_kept. Qed.
Print Assumptions C68_distribution_partial.

(** extended_p_square: the range reads the markers as they are now. *)
Theorem C68_extended_refuted : exists s1 s l1 l,
  ext_run QcN [Q2Qc (1 # 2)] (map (fun z => Q2Qc (inject_Z z)) [1; 2; 3; 4; 5]%Z) = Ok s1 /\
  ext_run QcN [Q2Qc (1 # 2)] (map (fun z => Q2Qc (inject_Z z)) ([1; 2; 3; 4; 5] ++ [0; 0])%Z) = Ok s /\
  ext_result QcN [Q2Qc (1 # 2)] s1 = Ok l1 /\ ext_view QcN [Q2Qc (1 # 2)] s = Ok l /\ l <> l1.
Proof. exact extended_changes. Qed.
Print Assumptions C68_extended_refuted.

(** tail, tail_variate and tail_weights.  A range taken when the cache was full, or after which no sample came, can be read for
    ever and shows the samples of the present tail, in some order, and in the right order if the last thing done to the set was
    an extraction.  As long as no sample is pushed it shows what was returned.  A range taken before the cache was full
    cannot be read once another sample was pushed. *)
Theorem C68_tail_partial : forall (H : HeapOps), HeapContract H ->
  forall (A V : Type) (pred : A -> A -> bool), StrictWeak pred ->
  forall (k nv : nat) (dA : A) (dV : V) (ops1 ops2 : list (tail_op A V)), (0 < k)%nat -> WellFormed nv (ops1 ++ ops2) ->
  exists s1 s, tail_run H pred (tail_init k nv dA dV) (ops1 ++ [TExtract]) = Ok s1 /\
    tail_run H pred (tail_init k nv dA dV) (ops1 ++ TExtract :: ops2) = Ok s /\
    ((k <= length (pushes ops1))%nat \/ pushes ops2 = [] ->
      exists l t, tail_view (tail_taken s1) s = Ok l /\ tail_result H pred s = Ok t /\ Permutation l t /\
        IsTail pred k (map fst (pushes (ops1 ++ ops2))) t) /\
    ((k <= length (pushes ops1))%nat -> forall ops, ops2 = ops ++ [TExtract] ->
      tail_view (tail_taken s1) s = tail_result H pred s /\
      forall j, tail_variate_view (tail_taken s1) s j = tail_variate_result H pred s j) /\
    (pushes ops2 = [] -> tail_view (tail_taken s1) s = tail_result H pred s1 /\
      forall j, tail_variate_view (tail_taken s1) s j = tail_variate_result H pred s1 j) /\
    ((length (pushes ops1) < k)%nat -> pushes ops2 <> [] -> tail_view (tail_taken s1) s = UB).
Proof. exact tail_kept_top. Qed.
Print Assumptions C68_tail_partial.

Theorem C68_tail_refuted : forall (H : HeapOps), HeapContract H -> exists s1 s : tail_state Qc unit,
  tail_run H (tail_pred QcN Right) (tail_init 1 0 (Q2Qc 0) tt) [TPush (Q2Qc 5) []; TExtract] = Ok s1 /\
  tail_run H (tail_pred QcN Right) (tail_init 1 0 (Q2Qc 0) tt) [TPush (Q2Qc 5) []; TExtract; TPush (Q2Qc 7) []] = Ok s /\
  tail_result H (tail_pred QcN Right) s1 = Ok [Q2Qc 5] /\ tail_view (tail_taken s1) s = Ok [Q2Qc 7].
Proof. exact tail_changes. Qed.
Print Assumptions C68_tail_refuted.

(** rolling_window: a range taken of a window that is not empty shows the window followed by the samples pushed since then, as long
    as they are not more than the window size plus one, and cannot be read thereafter.  So a full window can be read, and shows
    one sample too many, after one more sample, and cannot be read after two.  A range taken of an empty window stays
    empty. *)
Theorem C68_rolling_window_refuted : forall (A : Type) (N : nat) (xs ys : list A),
  let buf := fun l => fold_left (rwp1_op N) l rwp1_init in
  let kept := window_taken N (length xs) (buf xs) in
  rolling_window_result N (buf xs) = LastN N xs /\
  window_view kept (length xs) (buf xs) = Ok (LastN N xs) /\
  window_view kept (length (xs ++ ys)) (buf (xs ++ ys)) =
    match LastN N xs with
    | [] => Ok []
    | _ => if Nat.leb (length (LastN N xs ++ ys)) (N + 1) then Ok (LastN N xs ++ ys) else UB
    end.
Proof. exact window_kept_top. Qed.
Print Assumptions C68_rolling_window_refuted.

(** tail_variate_means and weighted_tail_variate_means, absolute and relative: a range can be read until the next extraction of
    the same feature, and not thereafter, whatever that extraction computes. *)
Theorem C68_variate_means_refuted : forall (T : Type) (before : list (outcome (list T))) (m : outcome (list T)) (after : list (outcome (list T))),
  let run := fun ms => fold_left vmeans_extract ms vmeans_init in
  let kept := vm_extractions (run (before ++ [m])) in
  vmeans_view kept (run (before ++ [m])) = m /\
  (after <> [] -> vmeans_view kept (run (before ++ m :: after)) = UB).
Proof. exact @vmeans_kept. Qed.
Print Assumptions C68_variate_means_refuted.

(** The hypotheses can be met: a full cache, an extraction, more samples and another extraction. *)
Example C68_tail_example : exists s1 s,
  tail_run sorting_heap (tail_pred QcN Right) (tail_init 2 0 (Q2Qc 0) tt)
    [TPush (Q2Qc 3) []; TPush (Q2Qc 1) []; TExtract] = Ok s1 /\
  tail_run sorting_heap (tail_pred QcN Right) (tail_init 2 0 (Q2Qc 0) tt)
    [TPush (Q2Qc 3) []; TPush (Q2Qc 1) []; TExtract; TPush (Q2Qc 4) []; TExtract] = Ok s /\
  tail_result sorting_heap (tail_pred QcN Right) s1 = Ok [Q2Qc 3; Q2Qc 1] /\
  tail_view (tail_taken s1) s = Ok [Q2Qc 4; Q2Qc 3].
Proof. exact tail_kept_example. Qed.
Example C68_window_example : let buf := fun l => fold_left (rwp1_op 2) l rwp1_init in
  let kept := window_taken 2 3 (buf [1; 2; 3]%nat) in
  rolling_window_result 2 (buf [1; 2; 3]%nat) = [2; 3]%nat /\
  window_view kept 4 (buf [1; 2; 3; 4]%nat) = Ok [2; 3; 4]%nat /\ window_view kept 5 (buf [1; 2; 3; 4; 5]%nat) = UB.
Proof. repeat split. Qed.
