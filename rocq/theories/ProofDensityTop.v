(** The histogram lemmas instantiated: unweighted and weighted. *)
From Coq Require Import List Arith Bool Lia Field QArith Qcanon.
From Verif Require Import Num NumFacts ModelDensity SpecStats SpecDensity ProofBasic ProofOrder ProofDensity ProofDensityMed.
Import ListNotations.

Section Top.
Variable K : Num.
Hypothesis HO : OrderedLaws K.
Let HK : FieldLaws K := ord_field K HO.
Local Notation T := (car K).
Add Field KfieldDT : (fl_field K HK).

Lemma total_ones {A} (l : list A) : total K (fun _ => one K) l = ofnat K (length l).
Proof. rewrite (total_const K HK). ring. Qed.

Lemma density_top (lo hi : T) (c b : nat) (s0 : T) (ops : list (dens_op T)) : let xs := dens_pushes ops in
  (1 <= c)%nat -> (1 <= b)%nat -> (c <= length xs)%nat ->
  Forall (fun x => ltb K x lo = false /\ ltb K hi x = false) xs ->
  exists s m M, density_run K lo hi c b s0 ops = Ok s /\
    IsMin K (firstn c xs) m /\ IsMax K (firstn c xs) M /\
    density_result K s =
      map (fun i => (BinPosition K m M b i,
                     div K (ofnat K (length (filter (InBin K m M b i) xs))) (ofnat K (length xs))))
          (seq 0 (b + 2)).
Proof.
  intros xs Hc Hb Hn HB.
  destruct (density_main K HO T (fun x => x) (fun _ => one K) (fun n _ => ofnat K n) lo hi c b Hc Hb s0 (zero K) ops Hn) as (s & m & M & E1 & H1 & H2 & H3 & E2).
  { fold xs. rewrite map_id. exact HB. }
  exists s, m, M. split; [exact E1|]. fold xs in H1, H2. rewrite map_id in H1, H2. split; [exact H1|]. split; [exact H2|].
  unfold density_result. rewrite E2. apply map_ext. intros i. fold xs. rewrite total_ones. reflexivity.
Qed.
Lemma density_sum1 (m M : T) (b : nat) (xs : list T) : ltb K M m = false -> (1 <= b)%nat -> xs <> [] ->
  total K snd (map (fun i => (BinPosition K m M b i,
                     div K (ofnat K (length (filter (InBin K m M b i) xs))) (ofnat K (length xs))))
          (seq 0 (b + 2))) = one K /\
  (forall i, ltb K (div K (ofnat K (length (filter (InBin K m M b i) xs))) (ofnat K (length xs))) (zero K) = false).
Proof.
  intros Hm Hb Hne. split.
  - erewrite map_ext; [apply (fractions_sum K HO T (fun x => x) (fun _ => one K) (fun n _ => ofnat K n) 1 b (le_n 1) Hb xs m M Hm)|].
    + rewrite total_ones. reflexivity.
    + rewrite total_ones. apply (length_neq0 K HK). exact Hne.
    + intros i. cbv beta. rewrite total_ones. reflexivity.
  - intros i. apply (kdiv_nonneg K HO); [apply (kofnat_nonneg K HO)|]. destruct xs; [congruence|]. apply (kofnat_pos K HO).
Qed.
Lemma one_bin (m M : T) (b : nat) (x : T) : ltb K M m = false -> (1 <= b)%nat ->
  exists i, (i <= b + 1)%nat /\ InBin K m M b i x = true /\
    forall j, (j <= b + 1)%nat -> InBin K m M b j x = true -> j = i.
Proof.
  intros Hm Hb. destruct (bin_index_spec K HO m M b x Hm Hb) as (i & _ & Hi & HI). exists i. split; [exact Hi|]. split; [exact HI|].
  intros j Hj HJ. exact (InBin_unique K HO m M b x j i Hm Hb Hj Hi HJ HI).
Qed.
Lemma positions (m M : T) (b : nat) : ltb K m M = true -> (1 <= b)%nat ->
  BinPosition K m M b 1 = m /\ BinPosition K m M b (b + 1) = M /\
  (forall i j, (i < j)%nat -> ltb K (BinPosition K m M b i) (BinPosition K m M b j) = true) /\
  (forall i, sub K (BinPosition K m M b (i + 1)) (BinPosition K m M b i) = div K (sub K M m) (ofnat K b)).
Proof.
  intros Hm Hb. split; [apply (bin_first K HO)|]. split; [apply (bin_last K HO); exact Hb|].
  split; [intros; apply (bin_strict K HO); auto|]. intros i. unfold BinPosition. rewrite (ofnat_add K HK), (ofnat_1 K HK).
  field. destruct b; [lia|]. apply (ofnat_S_neq0 K HK).
Qed.

Lemma wdensity_top (lo hi : T) (c b : nat) (s0 : T) (ops : list (dens_op (T * T))) : let es := dens_pushes ops in
  (1 <= c)%nat -> (1 <= b)%nat -> (c <= length es)%nat ->
  Forall (fun x => ltb K x lo = false /\ ltb K hi x = false) (map fst es) ->
  exists s m M, weighted_density_run K lo hi c b s0 ops = Ok s /\
    IsMin K (map fst (firstn c es)) m /\ IsMax K (map fst (firstn c es)) M /\
    weighted_density_result K s =
      map (fun i => (BinPosition K m M b i,
                     div K (TotalWeight K (filter (fun e => InBin K m M b i (fst e)) es)) (TotalWeight K es)))
          (seq 0 (b + 2)) /\
    (TotalWeight K es <> zero K -> total K snd (weighted_density_result K s) = one K).
Proof.
  intros es Hc Hb Hn HB.
  destruct (density_main K HO (T * T) fst snd (fun _ w => w) lo hi c b Hc Hb s0 (zero K, zero K) ops Hn HB) as (s & m & M & E1 & H1 & H2 & H3 & E2).
  exists s, m, M. split; [exact E1|]. split; [exact H1|]. split; [exact H2|]. split; [exact E2|].
  intros Hw. unfold weighted_density_result. rewrite E2.
  apply (fractions_sum K HO (T * T) fst snd (fun _ w => w) c b Hc Hb); auto.
Qed.
Definition weigh_ops (ops : list (dens_op T)) : list (dens_op (T * T)) :=
  map (fun o => match o with DPush x => DPush (x, one K) | DExtract => DExtract end) ops.
Lemma weigh_pushes ops : dens_pushes (weigh_ops ops) = unit_weights K (dens_pushes ops).
Proof. induction ops as [|[x|] ops IH]; cbn; [reflexivity| |exact IH]. f_equal. exact IH. Qed.
Lemma wdensity_unit (lo hi : T) (c b : nat) (s0 : T) (ops : list (dens_op T)) : let xs := dens_pushes ops in
  (1 <= c)%nat -> (1 <= b)%nat -> (c <= length xs)%nat ->
  Forall (fun x => ltb K x lo = false /\ ltb K hi x = false) xs ->
  exists s w, density_run K lo hi c b s0 ops = Ok s /\ weighted_density_run K lo hi c b s0 (weigh_ops ops) = Ok w /\
    weighted_density_result K w = density_result K s.
Proof.
  intros xs Hc Hb Hn HB.
  destruct (run_inv K HO T (fun x => x) (fun _ => one K) (fun n _ => ofnat K n) lo hi c b Hc Hb s0 (zero K) ops) as (s & E1 & I1).
  destruct (run_inv K HO (T * T) fst snd (fun _ w => w) lo hi c b Hc Hb s0 (zero K, zero K) (weigh_ops ops)) as (w & E2 & I2).
  exists s, w. split; [exact E1|]. split; [exact E2|].
  unfold weighted_density_result, density_result, dens_result.
  rewrite weigh_pushes in I2. fold xs in I1, I2.
  rewrite (extract_hist K _ _ _ _ _ _ _ _ _ _ I1) by exact Hn.
  rewrite (extract_hist K _ _ _ _ _ _ _ _ _ _ I2) by (unfold unit_weights; rewrite map_length; exact Hn).
  unfold hist_of. unfold unit_weights. rewrite firstn_map. unfold cmin, cmax. rewrite !map_map. cbn [fst].
  apply map_ext. intros i. f_equal. rewrite (total_map K). cbn [snd]. rewrite total_ones. f_equal.
  unfold bin_mass, in_bin. generalize (ModelMinMax.min_run (lims K lo hi) (map (fun x : T => x) (firstn c xs))) (ModelMinMax.max_run (lims K lo hi) (map (fun x : T => x) (firstn c xs))).
  intros m M. clear. induction xs as [|x xs IH]; [reflexivity|]. cbn [map filter fst].
  destruct (InBin K _ _ b i x); [|exact IH].
  rewrite !total_cons. cbn [snd]. rewrite IH. reflexivity.
Qed.
End Top.

Definition ex_dops : list (dens_op Qc) := [DPush (Q2Qc 0); DExtract; DPush (Q2Qc 4); DPush (Q2Qc 1); DPush (Q2Qc (-3)); DPush (Q2Qc 4)].
Definition show_hist (o : outcome (dens QcN Qc)) : outcome (list (Q * Q)) :=
  match o with Ok s => Ok (map (fun p => (this (fst p), this (snd p))) (density_result QcN s)) | NotANumber => NotANumber | UB => UB end.
Lemma ex_density : show_hist (density_run QcN ex_lo ex_hi 2 2 (Q2Qc 0) ex_dops) = Ok [(-2#1,1#5); (0#1,2#5); (2#1,0#1); (4#1,2#5)]
  /\ Forall (fun x => ltb QcN x ex_lo = false /\ ltb QcN ex_hi x = false) (dens_pushes ex_dops).
Proof. split; [vm_compute; reflexivity|repeat constructor]. Qed.
(** the largest cached sample is in the overflow bin, not in the last of the num_bins bins *)
Lemma ex_max_overflow : show_hist (density_run QcN ex_lo ex_hi 3 2 (Q2Qc 0) [DPush (Q2Qc 0); DPush (Q2Qc 4); DPush (Q2Qc 3)])
  = Ok [(-2#1,0#1); (0#1,1#3); (2#1,1#3); (4#1,1#3)].
Proof. vm_compute; reflexivity. Qed.
(** with cache size 0 the bins are never placed *)
Lemma ex_cache0 : show_hist (density_run QcN ex_lo ex_hi 0 2 (Q2Qc 0) [DPush (Q2Qc 1); DPush (Q2Qc 4); DPush (Q2Qc 3)])
  = Ok [(0#1,0#1); (0#1,0#1); (0#1,0#1); (0#1,1#1)].
Proof. vm_compute; reflexivity. Qed.
