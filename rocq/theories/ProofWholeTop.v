(** What the features of a set mean: the theorems about the stand-alone models, inside any set. *)

From Coq Require Import List Bool Arith Lia Permutation.
From Verif Require Import Num NumFacts ModelBasic SpecStats ProofBasic.
From Verif Require Import ModelMinMax ProofMinMax ModelDensity SpecDensity ProofDensityTop ModelPSquare SpecPSquare ProofPSquareInst ProofPSquareMore.
From Verif Require Import ModelTail SpecTail ProofTail ProofTailStats ProofTailTop ModelPot SpecPot ProofPSquare ProofPot.
From Verif Require Import ModelFramework SpecFramework ProofFramework ProofFrameworkRef ProofFrameworkRun.
From Verif Require Import ModelLibrary ModelSets SpecSets ProofLibrary ProofSets ProofSetsTop.
From Verif Require Import ModelRollingSets ModelWhole SpecWhole ProofWhole1 ProofWhole.
Import ListNotations.

Lemma extracted : forall K (A : Args K) sqrt, FieldLaws K -> forall enum W fs es t,
  Session K A sqrt enum W fs es t -> estimator t = true ->
  Extracted K A sqrt enum W fs es t
  = VRest (Alone K A (provider (make_tuple Library enum W fs)) (samples Library (WholeSets K A sqrt) es) t).
Proof.
  intros K A sqrt HK enum W fs es t [H1 H2 H3 H4 (r & b & H5 & H6)] Ht.
  exact (whole_answers K A sqrt HK enum H1 W fs H2 H3 es H4 r (t, b) H5 H6 Ht).
Qed.

Lemma contains_provider : forall enum, Enumeration Library enum -> forall W fs t, Contains enum W fs t ->
  provider (make_tuple Library enum W fs) (lfeature t) = t.
Proof.
  intros enum He W fs t [b H].
  exact (provider_member _ (t, b) (tuple_once Library library_laws enum He W fs) H).
Qed.

Section Top.
Variable K : Num.
Hypothesis HO : OrderedLaws K.
Let HK : FieldLaws K := ord_field K HO.
Variable A : Args K.
Variable sqrt : car K -> car K.
Local Notation T := (car K).
Local Notation B := (WholeSets K A sqrt).
Variable enum : fmap Library -> fmap Library.
Variable W : bool.
Variable fs : list (request Library).
Variable es : list (event Library B).
Local Notation Has := (Contains enum W fs).
Local Notation S t := (Session K A sqrt enum W fs es t).
Local Notation "'out' t" := (Extracted K A sqrt enum W fs es t) (at level 10).
Local Notation xs := (samples Library B es : list (pack K)).
Local Notation ss := (samples_of K xs).
Local Notation ws := (weighted_samples K xs).
Local Notation Wt := (total K (fun w => w) (weights_of K xs)).
Local Notation prov := (provider (make_tuple Library enum W fs)).
Local Notation limits := (dens_limits K (a_lowest K A) (a_highest K A)).

Lemma limits_laws : OrderLaws limits.
Proof.
  constructor; cbn; intros.
  - apply (ord_irrefl K HO).
  - eapply (ord_trans K HO); eauto.
  - apply (ord_total K HO); assumption.
Qed.

Local Notation InRange := (InLimits K A xs).

Lemma set_min : S t_min -> xs <> [] -> InRange -> exists m, out t_min = VRest (NNum m) /\ IsMin K ss m.
Proof.
  intros H Hne Hr; eexists; split; [exact (extracted K A sqrt HK enum W fs es t_min H eq_refl) |].
  apply (min_run_spec limits limits_laws).
  unfold InLimits, samples_of in *; destruct xs as [| x l]; [congruence |]; cbn in Hr |- *.
  exists (p_sample x); split; [now left |]; inversion_clear Hr; tauto.
Qed.
Lemma set_max : S t_max -> xs <> [] -> InRange -> exists m, out t_max = VRest (NNum m) /\ IsMax K ss m.
Proof.
  intros H Hne Hr; eexists; split; [exact (extracted K A sqrt HK enum W fs es t_max H eq_refl) |].
  apply (max_run_spec limits limits_laws).
  unfold InLimits, samples_of in *; destruct xs as [| x l]; [congruence |]; cbn in Hr |- *.
  exists (p_sample x); split; [now left |]; inversion_clear Hr; tauto.
Qed.

(** *** Densities *)
Lemma pushes_dens : forall {E} (l : list E), dens_pushes (map DPush l) = l.
Proof. intros E l; unfold dens_pushes; induction l; cbn; congruence. Qed.

Lemma set_density : S t_density -> (1 <= a_density_cache K A)%nat -> (1 <= a_density_bins K A)%nat ->
  (a_density_cache K A <= length xs)%nat -> InRange ->
  exists h m M, out t_density = VRest (NHist (Ok h)) /\
    IsMin K (firstn (a_density_cache K A) ss) m /\ IsMax K (firstn (a_density_cache K A) ss) M /\
    h = map (fun i => (BinPosition K m M (a_density_bins K A) i,
                       div K (ofnat K (length (filter (InBin K m M (a_density_bins K A) i) ss))) (ofnat K (length ss))))
            (seq 0 (a_density_bins K A + 2)).
Proof.
  intros H Hc Hb Hn Hr.
  destruct (density_top K HO (a_lowest K A) (a_highest K A) (a_density_cache K A) (a_density_bins K A) (zero K) (map DPush ss))
    as (d & m & M & E1 & E2 & E3 & E4); rewrite ?pushes_dens; try assumption.
  { now rewrite samples_length. }
  rewrite pushes_dens in *.
  exists (density_result K d), m, M; split; [| now split].
  rewrite (extracted K A sqrt HK enum W fs es t_density H eq_refl); cbn [Alone Hist]; now rewrite E1.
Qed.
Lemma set_weighted_density : S t_weighted_density -> (1 <= a_density_cache K A)%nat -> (1 <= a_density_bins K A)%nat ->
  (a_density_cache K A <= length xs)%nat -> InRange ->
  exists h m M, out t_weighted_density = VRest (NHist (Ok h)) /\
    IsMin K (firstn (a_density_cache K A) ss) m /\ IsMax K (firstn (a_density_cache K A) ss) M /\
    h = map (fun i => (BinPosition K m M (a_density_bins K A) i,
                       div K (TotalWeight K (filter (fun e => InBin K m M (a_density_bins K A) i (fst e)) ws)) (TotalWeight K ws)))
            (seq 0 (a_density_bins K A + 2)).
Proof.
  intros H Hc Hb Hn Hr.
  destruct (wdensity_top K HO (a_lowest K A) (a_highest K A) (a_density_cache K A) (a_density_bins K A) (zero K) (map DPush ws))
    as (d & m & M & E1 & E2 & E3 & E4 & _); rewrite ?pushes_dens; try assumption.
  { now rewrite weighted_length. }
  { now rewrite weighted_fst. }
  rewrite pushes_dens in *; rewrite <- firstn_map, weighted_fst in *.
  exists (weighted_density_result K d), m, M; split; [| now split].
  rewrite (extracted K A sqrt HK enum W fs es t_weighted_density H eq_refl); cbn [Alone Hist]; now rewrite E1.
Qed.

(** *** P-square *)
Lemma set_p_square : S t_p_square_quantile -> (5 <= length xs)%nat ->
  exists q lo hi, out t_p_square_quantile = VRest (NOut (Ok q)) /\ IsMin K ss lo /\ IsMax K ss hi /\ Between K lo q hi.
Proof.
  intros H Hn; destruct (pq_main K HO (a_probability K A) ss) as (q & r & lo & hi & E1 & _ & _ & _ & E2 & H1 & H2 & H3);
    [now rewrite samples_length |].
  exists r, lo, hi; split; [| now split].
  rewrite (extracted K A sqrt HK enum W fs es _ H eq_refl); cbn [Alone PQuantile]; rewrite E1; cbn [obnd]; now rewrite E2.
Qed.
Lemma set_weighted_p_square : S t_weighted_p_square_quantile -> (5 <= length xs)%nat ->
  Forall (fun w => ltb K (zero K) w = true) (weights_of K xs) ->
  exists q lo hi, out t_weighted_p_square_quantile = VRest (NOut (Ok q)) /\ IsMin K ss lo /\ IsMax K ss hi /\ Between K lo q hi.
Proof.
  intros H Hn Hw; destruct (wpq_main K HO (a_probability K A) ws) as (q & r & lo & hi & E1 & _ & _ & _ & E2 & H1 & H2 & H3);
    [now rewrite weighted_length | rewrite <- weighted_snd, Forall_map in Hw; exact Hw |].
  rewrite weighted_fst in H1, H2; exists r, lo, hi; split; [| now split].
  rewrite (extracted K A sqrt HK enum W fs es _ H eq_refl); cbn [Alone PQuantile]; rewrite E1; cbn [obnd]; now rewrite E2.
Qed.
Lemma set_median : S t_median -> (5 <= length xs)%nat ->
  exists q lo hi, out t_median = VRest (NOut (Ok q)) /\ IsMin K ss lo /\ IsMax K ss hi /\ Between K lo q hi.
Proof.
  intros H Hn; destruct (pq_main K HO (half K) ss) as (q & r & lo & hi & E1 & _ & _ & _ & E2 & H1 & H2 & H3);
    [now rewrite samples_length |].
  exists r, lo, hi; split; [| now split].
  rewrite (extracted K A sqrt HK enum W fs es _ H eq_refl); cbn [Alone Median PQuantile]; rewrite E1; cbn [obnd]; now rewrite E2.
Qed.
Lemma set_extended : S t_extended_p_square -> (2 * length (a_probabilities K A) + 3 <= length xs)%nat ->
  exists rs lo hi, out t_extended_p_square = VRest (NList (Ok rs)) /\ length rs = length (a_probabilities K A) /\
    NonDecreasing K rs /\ IsMin K ss lo /\ IsMax K ss hi /\ Forall (fun r => Between K lo r hi) rs.
Proof.
  intros H Hn; destruct (ext_main K HO (a_probabilities K A) ss) as (q & rs & lo & hi & E1 & E2 & H1 & H2 & H3 & H4 & H5 & _);
    [now rewrite samples_length |].
  exists rs, lo, hi; split; [| repeat split; assumption || apply H3 || apply H4].
  rewrite (extracted K A sqrt HK enum W fs es _ H eq_refl); cbn [Alone Extended]; rewrite E1; cbn [obnd]; now rewrite E2.
Qed.
Lemma set_distribution : S t_p_square_cumulative_distribution -> (1 <= a_cells K A)%nat -> (a_cells K A < length xs)%nat ->
  exists ps lo hi, out t_p_square_cumulative_distribution = VRest (NHist (Ok ps)) /\ length ps = (a_cells K A + 1)%nat /\
    IsMin K ss lo /\ IsMax K ss hi /\ nth_error ps 0 = Some (lo, div K (one K) (ofnat K (length xs))) /\
    nth_error ps (a_cells K A) = Some (hi, one K) /\ NonDecreasing K (map fst ps) /\ Increasing K (map snd ps).
Proof.
  intros H Hb Hn; destruct (cd_main K HO (a_cells K A) ss) as (q & lo & hi & E1 & H1 & H2 & H3 & H4 & H5 & H6 & H7 & _);
    [assumption | now rewrite samples_length |].
  rewrite samples_length in *.
  exists (cd_pairs K q), lo, hi; split; [| now repeat (split; [assumption |])].
  rewrite (extracted K A sqrt HK enum W fs es _ H eq_refl); cbn [Alone Dist]; now rewrite E1.
Qed.

(** *** Tails *)
Hypothesis HH : HeapContract (a_heap K A).
Hypothesis Hk : (0 < a_tail_cache K A)%nat.
Hypothesis HCeil : CeilSpec K (a_ceil K A).
Local Notation k := (a_tail_cache K A).
Local Notation ceil := (a_ceil K A).

Lemma tail_entries : forall s, exists ps,
  TailSamples K A xs (t_tail s) = Ok (map p_sample ps) /\ TailCalls K A xs (t_tail s) = Ok ps /\
  IsTail (fun a b => MoreExtreme K (lr_of s) (p_sample a) (p_sample b)) k xs ps.
Proof.
  intros s.
  assert (HP : SpecTail.pushes (map (fun p : pack K => TPush (p_sample p) [p]) xs) = map (fun p => (p_sample p, [p])) xs).
  { unfold SpecTail.pushes; induction xs as [| x l IH]; cbn; congruence. }
  assert (HW : WellFormed 1 (map (fun p : pack K => TPush (p_sample p) [p]) xs)).
  { unfold WellFormed; rewrite HP, Forall_map; apply Forall_forall; reflexivity. }
  destruct (run_entries K HO (a_heap K A) HH (lr_of s) (pack K) (pack K) (fun p => (p_sample p, [p])) k 1
              (zero K) (no_pack K) _ xs Hk HW HP) as (st & ps & E1 & HT & E2 & E3).
  destruct (E3 0%nat Nat.lt_0_1) as (vs & E4 & E5).
  apply (vals_map _ _ vs (fun p => p)) in E5; [| reflexivity]; rewrite map_id in E5; subst vs.
  exists ps; cbn [TailSamples TailCalls]; unfold TailState; rewrite E1; cbn [obnd]; rewrite E2, E4.
  repeat split; apply HT.
Qed.

Lemma set_tail : forall s, S (t_tail s) -> exists ps,
  out (t_tail s) = VRest (NTail (Ok (map p_sample ps)) (Ok ps)) /\
  IsTail (fun a b => MoreExtreme K (lr_of s) (p_sample a) (p_sample b)) k xs ps.
Proof.
  intros s H; destruct (tail_entries s) as (ps & E1 & E2 & HT); exists ps; split; [| exact HT].
  rewrite (extracted K A sqrt HK enum W fs es _ H eq_refl); cbn [Alone]; now rewrite E1, E2.
Qed.

Lemma prov_of : forall t f, S t -> Has f -> prov (lfeature f) = f.
Proof. intros t f [He _ _ _ _] Hf; now apply contains_provider. Qed.

Lemma samples_tail : forall s ps,
  IsTail (fun a b => MoreExtreme K (lr_of s) (p_sample a) (p_sample b)) k xs ps ->
  IsTail (MoreExtreme K (lr_of s)) k ss (map p_sample ps).
Proof. intros s ps HT; exact (IsTail_map p_sample (MoreExtreme K (lr_of s)) k xs ps HT). Qed.

Lemma set_tail_quantile : forall s, S (t_tail_quantile s) -> Has (t_tail s) ->
  exists q, out (t_tail_quantile s) = VRest (NFun q) /\
  forall p r, Inside01 K p -> IsCeil K (mul K (ofnat K (length xs)) (TailShare K (lr_of s) p)) r ->
    ((r < Nat.min k (length xs))%nat -> exists v, q p = Ok v /\ OrderStat (MoreExtreme K (lr_of s)) ss r v) /\
    ((Nat.min k (length xs) <= r)%nat -> q p = NotANumber).
Proof.
  intros s H Ht; eexists; split; [exact (extracted K A sqrt HK enum W fs es _ H eq_refl) |].
  intros p r Hp HI; cbn [Quantile].
  replace (prov t_abstract_tail) with (t_tail s) by (symmetry; exact (prov_of _ (t_tail s) H Ht)).
  destruct (tail_entries s) as (ps & E1 & _ & HT); rewrite E1; cbn [obnd].
  apply samples_tail in HT; rewrite <- (samples_length K xs) in *.
  rewrite <- (map_id (map p_sample ps)); split; intros Hr.
  - destruct (quantile_ok K HO ceil HCeil (lr_of s) T (fun x => x) k ss _ HT p r (in01_level K HO _ p Hp) HI Hr) as (v & Ev & HS & _).
    now exists v.
  - exact (quantile_nan K ceil HCeil (lr_of s) T (fun x => x) k ss _ HT p r HI Hr).
Qed.

Lemma set_tail_mean : forall s, S (t_non_coherent_tail_mean s) -> Has (t_tail s) ->
  exists q, out (t_non_coherent_tail_mean s) = VRest (NFun q) /\
  forall p r, Inside01 K p -> xs <> [] -> IsCeil K (mul K (ofnat K (length xs)) (TailShare K (lr_of s) p)) r ->
    ((r <= Nat.min k (length xs))%nat ->
       exists a, MostExtreme (MoreExtreme K (lr_of s)) ss r a /\ q p = Ok (Mean K a)) /\
    ((Nat.min k (length xs) < r)%nat -> q p = NotANumber).
Proof.
  intros s H Ht; eexists; split; [exact (extracted K A sqrt HK enum W fs es _ H eq_refl) |].
  intros p r Hp Hne HI; cbn [TailMean].
  replace (prov t_abstract_tail) with (t_tail s) by (symmetry; exact (prov_of _ (t_tail s) H Ht)).
  destruct (tail_entries s) as (ps & E1 & _ & HT); rewrite E1; cbn [obnd].
  apply samples_tail in HT; assert (Hn : (1 <= length ss)%nat).
  { rewrite samples_length; destruct xs; [congruence | cbn; lia]. }
  rewrite <- (samples_length K xs) in *.
  rewrite <- (map_id (map p_sample ps)); split; intros Hr.
  - destruct (nctm_ok K HO ceil HCeil (lr_of s) T (fun x => x) k ss _ HT p r (in01_level K HO _ p Hp) Hn HI Hr) as (Ev & HS).
    exists (firstn r (map p_sample ps)); split; [exact HS |]; rewrite Ev; unfold Mean, average.
    destruct HS as [-> _]; reflexivity.
  - exact (nctm_nan K ceil HCeil (lr_of s) T (fun x => x) k ss _ HT p r HI Hr).
Qed.

(** The weighted quantile and tail mean: [a] then [v] are the most extreme calls, [v] the first one at which
    their weights reach the level. *)
Lemma set_weighted_tail_quantile : forall s s', S (t_weighted_tail_quantile s) -> Has (t_tail s) -> Has (t_tail_weights s') ->
  exists q, out (t_weighted_tail_quantile s) = VRest (NFun q) /\
  forall p, let thr := mul K Wt (TailShare K (lr_of s) p) in ltb K (zero K) thr = true ->
    (exists a v, ReachesAt K (fun x y => MoreExtreme K (lr_of s) (p_sample x) (p_sample y)) p_weight xs thr a v /\
       q p = Ok (p_sample v))
    \/ (q p = NotANumber /\
        exists ps, IsTail (fun a b => MoreExtreme K (lr_of s) (p_sample a) (p_sample b)) k xs ps /\
          ltb K (total K p_weight ps) thr = true).
Proof.
  intros s s' H Ht Hw; eexists; split; [exact (extracted K A sqrt HK enum W fs es _ H eq_refl) |].
  intros p thr Hthr; cbn [Quantile].
  replace (prov t_abstract_tail_weights) with (t_tail_weights s') by (symmetry; exact (prov_of _ (t_tail_weights s') H Hw)).
  cbn [TailWeights].
  replace (prov t_abstract_tail) with (t_tail s) by (symmetry; exact (prov_of _ (t_tail s) H Ht)).
  destruct (tail_entries s) as (ps & E1 & E2 & HT); rewrite E1, E2; cbn [obnd].
  destruct (wquantile_spec K HO (lr_of s) (pack K) p_sample k xs ps HT p_weight Wt p Hthr) as [(a & v & HR & E) | [E HL]].
  - left; exists a, v; now split.
  - right; split; [exact E |]; now exists ps.
Qed.
Lemma set_weighted_tail_mean : forall s s', S (t_non_coherent_weighted_tail_mean s) -> Has (t_tail s) -> Has (t_tail_weights s') ->
  exists q, out (t_non_coherent_weighted_tail_mean s) = VRest (NFun q) /\
  forall p, let thr := mul K Wt (TailShare K (lr_of s) p) in ltb K (zero K) thr = true ->
    (exists a v, ReachesAt K (fun x y => MoreExtreme K (lr_of s) (p_sample x) (p_sample y)) p_weight xs thr a v /\
       q p = Ok (div K (total K (fun e => mul K (p_sample e) (p_weight e)) (a ++ [v])) (total K p_weight (a ++ [v]))))
    \/ (q p = NotANumber /\
        exists ps, IsTail (fun a b => MoreExtreme K (lr_of s) (p_sample a) (p_sample b)) k xs ps /\
          ltb K (total K p_weight ps) thr = true).
Proof.
  intros s s' H Ht Hw; eexists; split; [exact (extracted K A sqrt HK enum W fs es _ H eq_refl) |].
  intros p thr Hthr; cbn [TailMean].
  replace (prov t_abstract_tail_weights) with (t_tail_weights s') by (symmetry; exact (prov_of _ (t_tail_weights s') H Hw)).
  cbn [TailWeights].
  replace (prov t_abstract_tail) with (t_tail s) by (symmetry; exact (prov_of _ (t_tail s) H Ht)).
  destruct (tail_entries s) as (ps & E1 & E2 & HT); rewrite E1, E2; cbn [obnd].
  destruct (wmean_spec K HO (lr_of s) (pack K) p_sample k xs ps HT p_weight Wt p Hthr) as [(a & v & HR & E) | [E HL]].
  - left; exists a, v; now split.
  - right; split; [exact E |]; now exists ps.
Qed.

(** Absolute tail variate means: the averages of the coordinates of variate [v] over the [r] most extreme calls. *)
Lemma set_variate_means : forall s s' v d, S (t_absolute_tail_variate_means s v) -> Has (t_tail s) ->
  Has (t_tail_variate s' v) -> Has (t_non_coherent_tail_mean s) ->
  Forall (fun p => length (p_vector p v) = d) xs ->
  exists q, out (t_absolute_tail_variate_means s v) = VRest (NVFun q) /\
  forall p r, Inside01 K p -> IsCeil K (mul K (ofnat K (length xs)) (TailShare K (lr_of s) p)) r ->
    (r < Nat.min k (length xs))%nat ->
    exists a ms, MostExtreme (fun x y => MoreExtreme K (lr_of s) (p_sample x) (p_sample y)) xs r a /\
      q p = Ok ms /\ length ms = d /\
      forall i, (i < d)%nat -> nth i ms (zero K) = average K (fun e => nth i (p_vector e v) (zero K)) a.
Proof.
  intros s s' v d H Ht Hv Hm Hd; eexists; split; [exact (extracted K A sqrt HK enum W fs es _ H eq_refl) |].
  intros p r Hp HI Hr; cbv beta.
  replace (prov t_abstract_tail_variate) with (t_tail_variate s' v) by (symmetry; exact (prov_of _ (t_tail_variate s' v) H Hv)).
  replace (prov t_abstract_non_coherent_tail_mean) with (t_non_coherent_tail_mean s)
    by (symmetry; exact (prov_of _ (t_non_coherent_tail_mean s) H Hm)).
  cbn [TailVariates TailMean].
  replace (prov t_abstract_tail) with (t_tail s) by (symmetry; exact (prov_of _ (t_tail s) H Ht)).
  destruct (tail_entries s) as (ps & E1 & E2 & HT); rewrite E1, E2; cbn [obnd].
  destruct (tvm_ok K HO ceil HCeil (lr_of s) (pack K) p_sample k xs ps HT (fun p => p_vector p v) d Hd false p r
              (in01_level K HO _ p Hp) HI Hr) as (ms & M1 & M2 & M3 & M4 & M5); [discriminate |].
  exists (firstn r ps), ms; split; [exact M3 |]; split; [exact M1 |]; split; [exact M2 |].
  intros i Hi; rewrite (M5 i Hi); unfold average; destruct M3 as [-> _]; reflexivity.
Qed.

(** *** Peaks over threshold *)
Lemma fit_samples : forall s, Fit K A prov xs (t_peaks_over_threshold s)
  = last (pot_out K (a_pow K A) (lr_of s) (zero K) (a_threshold K A)
            (map (fun x => PPush K x (one K)) ss ++ repeat (PExtract K) 1)) UB.
Proof.
  intros s; cbn [Fit repeat].
  set (one_each := map (fun x => mkPack K x (one K) (fun _ => zero K) (fun _ => [])) ss).
  replace (map (fun x => PPush K x (one K)) ss) with (pushed K one_each)
    by (unfold one_each, pushed; rewrite map_map; reflexivity).
  change (map (fun p : pack K => PPush K (p_sample p) (p_weight p)) xs) with (pushed K xs).
  rewrite !(pot_fit_pushed K A).
  replace (length one_each) with (length xs) by (unfold one_each; now rewrite map_length, samples_length).
  replace (prun K A (lr_of s) one_each) with (prun K A (lr_of s) xs); [reflexivity |].
  unfold prun, one_each, samples_of; rewrite !map_map; generalize (pot_init K (lr_of s) (zero K) (a_threshold K A)).
  induction xs as [| x l IH]; intros q; cbn; [reflexivity | apply IH].
Qed.
Lemma set_pot : forall s, S (t_peaks_over_threshold s) ->
  let ys := Exceedances K (lr_of s) (a_threshold K A) ss in
  ys <> [] -> Variance K ys <> zero K -> Xi K (Mean K ys) (Variance K ys) (Mirror K (lr_of s) (a_threshold K A)) <> zero K ->
  out (t_peaks_over_threshold s) =
    VRest (NFit (Ok (PotParameters K (a_pow K A) (Mean K ys) (Variance K ys) (Mirror K (lr_of s) (a_threshold K A))
                       (div K (ofnat K (length ys)) (ofnat K (length ss)))))).
Proof.
  intros s H ys H1 H2 H3; rewrite (extracted K A sqrt HK enum W fs es _ H eq_refl); cbn [Alone].
  rewrite fit_samples, (pot_first K HO (a_pow K A) (lr_of s) (a_threshold K A) ss 1 H1 H2 H3); reflexivity.
Qed.
Lemma set_pot_quantile : forall s, S (t_pot_quantile s) -> Has (t_peaks_over_threshold s) ->
  let ys := Exceedances K (lr_of s) (a_threshold K A) ss in
  ys <> [] -> Variance K ys <> zero K -> Xi K (Mean K ys) (Variance K ys) (Mirror K (lr_of s) (a_threshold K A)) <> zero K ->
  exists q, out (t_pot_quantile s) = VRest (NFun q) /\
  forall p, q p = Ok (pot_quantile_result K (a_pow K A) (lr_of s)
      (PotParameters K (a_pow K A) (Mean K ys) (Variance K ys) (Mirror K (lr_of s) (a_threshold K A))
         (div K (ofnat K (length ys)) (ofnat K (length ss)))) p).
Proof.
  intros s H Hf ys H1 H2 H3; eexists; split; [exact (extracted K A sqrt HK enum W fs es _ H eq_refl) |].
  intros p; cbn [Quantile].
  replace (prov t_abstract_peaks_over_threshold) with (t_peaks_over_threshold s)
    by (symmetry; exact (prov_of _ (t_peaks_over_threshold s) H Hf)).
  rewrite fit_samples, (pot_first K HO (a_pow K A) (lr_of s) (a_threshold K A) ss 1 H1 H2 H3); reflexivity.
Qed.
(** pot_tail_mean, if the quantile of the set is that of the fit. *)
(** The tail mean of a peaks-over-threshold fit builds on whatever the set reports as quantile. *)
Lemma set_pot_tail_mean_of : forall s t, S (t_pot_tail_mean s) -> Has (t_peaks_over_threshold s) -> Has t -> lfeature t = t_quantile ->
  let ys := Exceedances K (lr_of s) (a_threshold K A) ss in
  let fit := PotParameters K (a_pow K A) (Mean K ys) (Variance K ys) (Mirror K (lr_of s) (a_threshold K A))
         (div K (ofnat K (length ys)) (ofnat K (length ss))) in
  ys <> [] -> Variance K ys <> zero K -> Xi K (Mean K ys) (Variance K ys) (Mirror K (lr_of s) (a_threshold K A)) <> zero K ->
  snd fit <> one K ->
  exists q, out (t_pot_tail_mean s) = VRest (NFun q) /\
  forall p, q p = obnd (SpecWhole.Quantile K A prov xs t p) (fun v => Ok (pot_tail_mean_of K (a_pow K A) (lr_of s) v fit p)).
Proof.
  intros s t H Hf Hq Ht ys fit H1 H2 H3 H4; eexists; split; [exact (extracted K A sqrt HK enum W fs es _ H eq_refl) |].
  intros p; cbv beta.
  replace (prov t_quantile) with t by (rewrite <- Ht; symmetry; exact (prov_of _ t H Hq)).
  replace (prov t_abstract_peaks_over_threshold) with (t_peaks_over_threshold s)
    by (symmetry; exact (prov_of _ (t_peaks_over_threshold s) H Hf)).
  rewrite fit_samples, (pot_first K HO (a_pow K A) (lr_of s) (a_threshold K A) ss 1 H1 H2 H3).
  cbn [repeat last obnd]; fold ys; fold fit; unfold pot_tail_mean_at.
  destruct (keqb K (snd fit) (one K)) eqn:E; [exfalso; apply H4; now apply (keqb_true K HO) in E | reflexivity].
Qed.
Lemma set_pot_tail_mean : forall s, S (t_pot_tail_mean s) -> Has (t_peaks_over_threshold s) -> Has (t_pot_quantile s) ->
  let ys := Exceedances K (lr_of s) (a_threshold K A) ss in
  let fit := PotParameters K (a_pow K A) (Mean K ys) (Variance K ys) (Mirror K (lr_of s) (a_threshold K A))
         (div K (ofnat K (length ys)) (ofnat K (length ss))) in
  ys <> [] -> Variance K ys <> zero K -> Xi K (Mean K ys) (Variance K ys) (Mirror K (lr_of s) (a_threshold K A)) <> zero K ->
  snd fit <> one K ->
  exists q, out (t_pot_tail_mean s) = VRest (NFun q) /\
  forall p, q p = Ok (pot_tail_mean_result K (a_pow K A) (lr_of s) fit p).
Proof.
  intros s H Hf Hq ys fit H1 H2 H3 H4.
  destruct (set_pot_tail_mean_of s (t_pot_quantile s) H Hf Hq eq_refl H1 H2 H3 H4) as (q & E & Eq).
  exists q; split; [exact E |].
  intros p; rewrite Eq; cbn [SpecWhole.Quantile].
  replace (prov t_abstract_peaks_over_threshold) with (t_peaks_over_threshold s)
    by (symmetry; exact (prov_of _ (t_peaks_over_threshold s) H Hf)).
  rewrite fit_samples, (pot_first K HO (a_pow K A) (lr_of s) (a_threshold K A) ss 1 H1 H2 H3); reflexivity.
Qed.
End Top.

Lemma whole_basic : forall (K : Num) (A : Args K) sqrt, FieldLaws K -> forall enum, Enumeration Library enum -> forall W fs v,
  let B := WholeSets K A sqrt in
  let ts := make_tuple Library enum W fs in
  Compiles W ts -> NoRollingClash ts -> OneVariate v ts -> (forall t, In t ts -> order_ok (fst t)) ->
  forall es, SafeDrops fs ts (dropped_tags Library B es) -> WeightsOk K W (samples Library B es) ->
  forall r t, Live Library fs ts (dropped_tags Library B es) r -> Needs Library ts r t ->
  basic (fst t) = true ->
  Answer K sqrt (note K) W v (lfeature (fst t)) (samples Library B es)
    (read Library B (history Library B (construct Library B enum W fs) es) (lfeature (fst t))).
Proof.
  intros K A sqrt HK enum He W fs v B ts.
  exact (library_answers K HK sqrt (WholeRest K A) (whole_reads_only K A) enum He W fs v).
Qed.
