(** C81: the tail statistics of whole histories. *)
From Coq Require Import List Arith Bool Lia QArith Qcanon.
From Verif Require Import Num ModelTail ModelPSquare SpecStats SpecTail SpecUnitWeights SpecRisk ProofPSquareEx ProofBasic ProofOrder ProofTail ProofTailStats ProofTailTop ProofRisk.
Import ListNotations.

Lemma after_tail K : OrderedLaws K -> forall H, HeapContract H -> forall lr k dA ops, (0 < k)%nat -> WellFormed 0 ops ->
  exists tl, IsTail (MoreExtreme K lr) k (samples ops) tl /\ forall f, after K H lr k dA ops f = f (length (samples ops)) tl.
Proof.
  intros HO H HC lr k dA ops Hk HW. destruct (tail_sides K HO H HC unit lr k 0 dA tt ops Hk HW) as (s & tl & E1 & E2 & HT).
  exists tl. split; [exact HT |]. intros f. unfold after. rewrite E1, E2. reflexivity.
Qed.
Lemma combined {A B} (xs : list A) : forall (ys : list B), length xs = length ys -> map fst (combine xs ys) = xs /\ map snd (combine xs ys) = ys /\ length (combine xs ys) = length xs.
Proof.
  induction xs as [|x xs IH]; intros [|y ys] E; try discriminate E; [repeat split |]. injection E as E. destruct (IH ys E) as (E1 & E2 & E3). cbn. rewrite E1, E2, E3. repeat split.
Qed.
Lemma below_in K xs ys : Below K xs ys -> length xs = length ys /\ forall e, In e (combine xs ys) -> kle K (fst e) (snd e).
Proof.
  induction 1 as [|x y xs ys H _ [I1 I2]]; [split; [reflexivity | intros e []] |]. split; [cbn; now rewrite I1 |]. intros e [<-|He]; [now apply leb_kle | now apply I2].
Qed.
Lemma risk_monotone (K : Num) : OrderedLaws K -> forall (H : HeapOps), HeapContract H ->
  forall (lr : side) (ceil : car K -> nat) (k : nat) (dA : car K) (ops ops' : list (tail_op (car K) unit)),
  (0 < k)%nat -> WellFormed 0 ops -> WellFormed 0 ops' -> Below K (samples ops) (samples ops') ->
  forall p, let le := fun v w => leb K v w = true in let report := fun o f => after K H lr k dA o (fun n tl => f n tl p) in
    alike le (report ops (tail_quantile_result K ceil lr)) (report ops' (tail_quantile_result K ceil lr)) /\
    alike le (report ops (non_coherent_tail_mean_result K ceil lr)) (report ops' (non_coherent_tail_mean_result K ceil lr)) /\
    (Inside01 K p -> alike le (report ops (coherent_tail_mean_result K ceil lr)) (report ops' (coherent_tail_mean_result K ceil lr))).
Proof.
  intros HO H HC lr ceil k dA ops ops' Hk HW HW' HB p le report. destruct (below_in K _ _ HB) as [EL HI]. destruct (combined _ _ EL) as (E1 & E2 & E3).
  destruct (after_tail K HO H HC lr k dA ops Hk HW) as (tl & HT & R). destruct (after_tail K HO H HC lr k dA ops' Hk HW') as (tl' & HT' & R').
  unfold report. rewrite !R, !R', <- EL. set (P := combine (samples ops) (samples ops')) in *. rewrite <- E1 in HT. rewrite <- E2 in HT'. rewrite <- E3.
  split; [exact (quantile_monotone K HO lr ceil P k fst snd tl tl' p HT HT' HI) |]. split; [exact (mean_monotone K HO lr ceil P k fst snd tl tl' p HT HT' HI) |].
  intros [P0 P1]. exact (coherent_monotone K HO lr ceil P k fst snd tl tl' p (klt_le K HO _ _ P0) (klt_le K HO _ _ P1) HT HT' HI).
Qed.
Lemma risk_subadditive (K : Num) : OrderedLaws K -> forall (H : HeapOps), HeapContract H ->
  forall (lr : side) (ceil : car K -> nat) (k : nat) (dA : car K) (ops ops' ops'' : list (tail_op (car K) unit)),
  (0 < k)%nat -> WellFormed 0 ops -> WellFormed 0 ops' -> WellFormed 0 ops'' -> Sums K (samples ops) (samples ops') (samples ops'') ->
  forall p, let report := fun o f => after K H lr k dA o (fun n tl => f n tl p) in
    alike3 (NoWorse K lr) (report ops (non_coherent_tail_mean_result K ceil lr)) (report ops' (non_coherent_tail_mean_result K ceil lr)) (report ops'' (non_coherent_tail_mean_result K ceil lr)) /\
    (lr = Right -> CeilSpec K ceil -> Inside01 K p ->
     alike3 (NoWorse K lr) (report ops (coherent_tail_mean_result K ceil lr)) (report ops' (coherent_tail_mean_result K ceil lr)) (report ops'' (coherent_tail_mean_result K ceil lr))).
Proof.
  intros HO H HC lr ceil k dA ops ops' ops'' Hk HW HW' HW'' [EL ES] p report. destruct (combined _ _ EL) as (E1 & E2 & E3).
  destruct (after_tail K HO H HC lr k dA ops Hk HW) as (tl & HT & R). destruct (after_tail K HO H HC lr k dA ops' Hk HW') as (tl' & HT' & R').
  destruct (after_tail K HO H HC lr k dA ops'' Hk HW'') as (tl'' & HT'' & R'').
  assert (EL'' : length (samples ops'') = length (samples ops)) by (rewrite ES, map_length; exact E3).
  unfold report. rewrite !R, !R', !R'', EL'', <- EL. set (P := combine (samples ops) (samples ops')) in *. rewrite <- E1 in HT. rewrite <- E2 in HT'. rewrite ES in HT''. rewrite <- E3.
  split; [exact (mean_subadditive K HO lr ceil P k fst snd tl tl' tl'' p HT HT' HT'') |].
  intros ER HCe [P0 P1]. exact (coherent_subadditive K HO lr ceil P k fst snd tl tl' tl'' p (klt_le K HO _ _ P0) (klt_le K HO _ _ P1) ER HCe HT HT' HT'').
Qed.

(** ** Examples *)
Definition losses (l : list Q) : list (tail_op Qc unit) := map (fun x => TPush (Q2Qc x) []) l.
Definition quoted (lr : side) (l : list Q) (f : nat -> list Qc -> Qc -> outcome Qc) : outcome Q := shown (after QcN sorting_heap lr 3 (Q2Qc 0) (losses l) (fun n tl => f n tl (Q2Qc (1#2)))).
Lemma losses_wf l : WellFormed 0 (losses l).
Proof. unfold WellFormed, losses, pushes. induction l as [|x l IH]; [constructor |]. cbn. constructor; [reflexivity | exact IH]. Qed.
Definition first_loss := [4#1; 0#1; 1#1; 0#1]. Definition other_loss := [0#1; 4#1; 1#1; 0#1]. Definition joint_loss := [4#1; 4#1; 2#1; 0#1].
Lemma joint_is : WellFormed 0 (losses first_loss) /\ WellFormed 0 (losses other_loss) /\ WellFormed 0 (losses joint_loss) /\
  Sums QcN (samples (losses first_loss)) (samples (losses other_loss)) (samples (losses joint_loss)) /\ Below QcN (samples (losses first_loss)) (samples (losses joint_loss)).
Proof.
  split; [apply losses_wf |]. split; [apply losses_wf |]. split; [apply losses_wf |].
  split; [split; [reflexivity |]; cbn; repeat (f_equal; try (apply Qc_is_canon; reflexivity)) | repeat constructor].
Qed.
Lemma risk_quantile_values :
  quoted Right first_loss (tail_quantile_result QcN Qc_ceil Right) = Ok (1#1) /\ quoted Right other_loss (tail_quantile_result QcN Qc_ceil Right) = Ok (1#1) /\
  quoted Right joint_loss (tail_quantile_result QcN Qc_ceil Right) = Ok (4#1) /\
  quoted Right first_loss (non_coherent_tail_mean_result QcN Qc_ceil Right) = Ok (5#2) /\ quoted Right other_loss (non_coherent_tail_mean_result QcN Qc_ceil Right) = Ok (5#2) /\
  quoted Right joint_loss (non_coherent_tail_mean_result QcN Qc_ceil Right) = Ok (4#1).
Proof. repeat split; vm_compute; reflexivity. Qed.
Definition low1 := [0#1; 1#1; 9#1; 9#1]. Definition low2 := [1#1; 0#1; 9#1; 9#1]. Definition low12 := [1#1; 1#1; 18#1; 18#1].
Lemma low_values : Sums QcN (samples (losses low1)) (samples (losses low2)) (samples (losses low12)) /\
  quoted Left low1 (coherent_tail_mean_result QcN Qc_ceil Left) = Ok (3#4) /\ quoted Left low2 (coherent_tail_mean_result QcN Qc_ceil Left) = Ok (3#4) /\
  quoted Left low12 (coherent_tail_mean_result QcN Qc_ceil Left) = Ok (5#4).
Proof. split; [split; [reflexivity |]; cbn; repeat (f_equal; try (apply Qc_is_canon; reflexivity)) |]. repeat split; vm_compute; reflexivity. Qed.
(** Raising a sample lowers the P-square median. *)
Lemma raised_median :
  show1 (obnd (pq_run QcN (q2 1 2) (map q [4; 0; 3; 5; 1; 3; 6]%Z)) (pq_result QcN)) = Ok (7#2)%Q /\
  show1 (obnd (pq_run QcN (q2 1 2) (map q [4; 0; 3; 5; 1; 7; 6]%Z)) (pq_result QcN)) = Ok 3%Q.
Proof. split; vm_compute; reflexivity. Qed.
