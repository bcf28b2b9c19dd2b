(** More of what the features of a set mean: the weighted P-square family, the interpolated quantiles, the medians, the
    coherent tail mean, the other variate means and the other peaks over threshold. *)

From Coq Require Import List Bool Arith Lia Permutation Field.
From Verif Require Import Num NumFacts ModelBasic SpecStats ProofBasic ProofOrder.
From Verif Require Import ModelDensity SpecDensity ProofDensity ProofDensityTop ProofDensityMed ModelPSquare SpecPSquare ProofPSquareInst ProofPSquareMore.
From Verif Require Import ModelTail SpecTail ProofTail ProofTailStats ProofTailTop ModelPot SpecPot ProofPSquare ProofPot ProofPotMore.
From Verif Require Import ModelFramework SpecFramework ProofFramework ProofFrameworkRef ProofFrameworkRun.
From Verif Require Import ModelLibrary ModelSets SpecSets ProofLibrary ProofSets ProofSetsTop.
From Verif Require Import ModelRollingSets ModelWhole SpecWhole ProofWhole1 ProofWhole ProofWholeTop.
Import ListNotations.

Lemma needs_snoc : forall L ts r a c, Needs L ts r a -> In c ts -> Reads L a c -> Needs L ts r c.
Proof.
  intros L ts r a c H Hc Hr; apply (needs_trans L ts r a c H), (needs_read L ts a c c); auto.
  - exact (needs_member L ts r a H).
  - now apply needs_self.
Qed.

Section More.
Variable K : Num.
Hypothesis HO : OrderedLaws K.
Let HK : FieldLaws K := ord_field K HO.
Variable A : Args K.
Variable sqrt : car K -> car K.
Local Notation T := (car K).
Add Field KfieldWM : (fl_field K HK).
Local Notation B := (WholeSets K A sqrt).
Variable enum : fmap Library -> fmap Library.
Variable W : bool.
Variable fs : list (request Library).
Variable es : list (event Library B).
Local Notation Has := (Contains enum W fs).
Local Notation S t := (Session K A sqrt enum W fs es t).
Local Notation "'out' t" := (Extracted K A sqrt enum W fs es t) (at level 10).
Local Notation xs := (samples Library B es : list (pack K)).
Local Notation ss := (samples_of K xs).
Local Notation ws := (weighted_samples K xs).
Local Notation Wt := (total K (fun w => w) (weights_of K xs)).
Local Notation prov := (provider (make_tuple Library enum W fs)).
Local Notation found H := (extracted K A sqrt HK enum W fs es _ H eq_refl).
Local Notation Positive := (Forall (fun w => ltb K (zero K) w = true) (weights_of K xs)).

Lemma provided : forall t f, S t -> Has f -> prov (lfeature f) = f.
Proof. intros t f H Hf; exact (prov_of K A sqrt enum W fs es t f H Hf). Qed.
Lemma positive : Positive -> Forall (fun e => ltb K (zero K) (snd e) = true) ws.
Proof. intros Hw; rewrite <- weighted_snd, Forall_map in Hw; exact Hw. Qed.

(** *** P-square *)
Lemma set_weighted_median : S t_weighted_median -> (5 <= length xs)%nat -> Positive ->
  exists q lo hi, out t_weighted_median = VRest (NOut (Ok q)) /\ IsMin K ss lo /\ IsMax K ss hi /\ Between K lo q hi.
Proof.
  intros H Hn Hw; destruct (wpq_main K HO (half K) ws) as (q & r & lo & hi & E1 & _ & _ & _ & E2 & H1 & H2 & H3);
    [now rewrite weighted_length | now apply positive |].
  rewrite weighted_fst in H1, H2; exists r, lo, hi; split; [| now split].
  rewrite (found H); cbn [Alone Median PQuantile]; rewrite E1; cbn [obnd]; now rewrite E2.
Qed.
Lemma set_weighted_extended : S t_weighted_extended_p_square -> a_probabilities K A <> [] ->
  (2 * length (a_probabilities K A) + 3 <= length xs)%nat -> Positive ->
  exists rs lo hi, out t_weighted_extended_p_square = VRest (NList (Ok rs)) /\ length rs = length (a_probabilities K A) /\
    NonDecreasing K rs /\ IsMin K ss lo /\ IsMax K ss hi /\ Forall (fun r => Between K lo r hi) rs.
Proof.
  intros H Hp Hn Hw; destruct (wext_main K HO (a_probabilities K A) ws) as (q & rs & lo & hi & E1 & E2 & H1 & H2 & H3 & H4 & H5 & _);
    [assumption | now rewrite weighted_length | now apply positive |].
  rewrite weighted_fst in H3, H4.
  exists rs, lo, hi; split; [| repeat split; assumption || apply H3 || apply H4].
  rewrite (found H); cbn [Alone Extended]; rewrite E1; cbn [obnd]; now rewrite E2.
Qed.
(** The cumulative weights miss those of the first samples other than the largest (C34). *)
Lemma set_weighted_distribution : S t_weighted_p_square_cumulative_distribution ->
  (1 <= a_cells K A)%nat -> (a_cells K A < length xs)%nat -> Positive ->
  let b := a_cells K A in
  exists ps, out t_weighted_p_square_cumulative_distribution = VRest (NHist (Ok ps)) /\
    MarkerHeights K (b + 1) ss (map fst ps) /\ Increasing K (firstn b (map snd ps)) /\
    Forall (fun y => ltb K (zero K) y = true /\ ltb K (one K) y = false) (map snd ps) /\
    exists v w, In (v, w) (firstn (b + 1) ws) /\ IsMax K (firstn (b + 1) ss) v /\
      nth_error (map snd ps) b = Some (sub K (one K) (div K (sub K (TotalWeight K (firstn (b + 1) ws)) w) (TotalWeight K ws))).
Proof.
  intros H Hb Hn Hw b; destruct (wcd_main K HO (a_cells K A) ws) as (q & ps & E1 & E2 & H1 & H2 & H3 & v & w & H4 & H5 & H6);
    [assumption | now rewrite weighted_length | now apply positive |].
  rewrite <- firstn_map, weighted_fst in H5; rewrite weighted_fst in H1.
  exists ps; split; [| split; [exact H1 | split; [exact H2 | split; [exact H3 |]]]].
  - rewrite (found H); cbn [Alone Dist]; rewrite E1; cbn [obnd]; now rewrite E2.
  - exists v, w; split; [exact H4 | split; [exact H5 | exact H6]].
Qed.

(** The interpolated quantiles, from the least to the greatest probability. *)
Lemma set_extended_quantile : S t_extended_p_square_quantile -> Has t_extended_p_square ->
  forall first last, let probs := a_probabilities K A in
  Increasing K probs -> nth_error probs 0 = Some first -> nth_error probs (length probs - 1) = Some last ->
  (2 * length probs + 3 <= length xs)%nat ->
  exists q, out t_extended_p_square_quantile = VRest (NFun q) /\
    (forall p, ltb K p first = true \/ ltb K last p = true -> q p = NotANumber) /\
    (forall p p', ltb K p first = false -> ltb K p' p = false -> ltb K last p' = false ->
       exists v v', q p = Ok v /\ q p' = Ok v' /\ ltb K v' v = false).
Proof.
  intros H He first last probs Hi H0 H1 Hn.
  destruct (ext_main K HO probs ss) as (s & rs & lo & hi & E1 & E2 & L & ND & _); [now rewrite samples_length |].
  eexists; split; [exact (found H) |]; cbn [Quantile].
  replace (prov t_extended_p_square) with t_extended_p_square by (symmetry; exact (provided _ _ H He)).
  cbn [Extended]; fold probs; rewrite E1; cbn [obnd]; rewrite E2; cbn [obnd]; split.
  - intros p Hp; exact (eps_outside K Linear probs rs first last p H0 H1 Hp).
  - intros p p' Hp Hpp Hp'; exact (eps_monotone K HO probs rs first last p p' Hi ND L H0 H1 Hp Hpp Hp').
Qed.

(** *** Medians *)
Lemma also : forall t f, S t -> Has f -> In (lfeature f) (map lfeature (deps Library t)) -> S f.
Proof.
  intros t f [H1 H2 H3 H4 (r & b & H5 & H6)] [b' Hd] Hr; split; try assumption.
  exists r, b'; split; [exact H5 |]; exact (needs_snoc Library _ _ (t, b) _ H6 Hd Hr).
Qed.

Lemma hist_median : forall cnt h, (1 <= cnt)%nat -> total K snd h = one K ->
  HistogramMedian K h (VRest (NOut (obnd (dmed_result K (dmed_init K (zero K)) cnt h) (fun q => Ok (snd q))))).
Proof.
  intros cnt h Hc Ht.
  destruct (first_extract K HO (dmed_init K (zero K)) cnt h) as (i & HB & HU & HI); try reflexivity; try assumption.
  { cbn. field. exact (one_neq0 K HK). }
  exists i; split; [exact HB | split].
  - intros p y q z N1 N2 over; destruct (HI p y q z N1 N2) as (m' & -> & _); reflexivity.
  - intros Hi; now rewrite (HU Hi).
Qed.

Lemma set_density_median : S t_with_density_median -> Has t_density ->
  (1 <= a_density_cache K A)%nat -> (1 <= a_density_bins K A)%nat -> (a_density_cache K A <= length xs)%nat -> InLimits K A xs ->
  exists h, out t_density = VRest (NHist (Ok h)) /\ HistogramMedian K h (out t_with_density_median).
Proof.
  intros H Hd Hc Hb Hn Hr; assert (Hs : S t_density) by (apply (also _ _ H Hd); cbn; tauto).
  destruct (set_density K HO A sqrt enum W fs es Hs Hc Hb Hn Hr) as (h & m & M & E & Hm & HM & Eh).
  exists h; split; [exact E |].
  assert (T1 : total K snd h = one K).
  { rewrite Eh; apply (density_sum1 K HO); [| assumption |].
    - destruct Hm as [_ Hm], HM as [IM _]; exact (Hm M IM).
    - intros C; apply (f_equal (@length T)) in C; rewrite samples_length in C; cbn in C; lia. }
  rewrite (found Hs) in E; cbn [Alone] in E; injection E as E.
  rewrite (found H); cbn [Alone Median].
  replace (prov t_density) with t_density by (symmetry; exact (provided _ _ H Hd)); cbn [Hist] in *; rewrite E; cbn [obnd].
  apply hist_median; [lia | exact T1].
Qed.
Lemma set_weighted_density_median : S t_with_density_weighted_median -> Has t_weighted_density ->
  (1 <= a_density_cache K A)%nat -> (1 <= a_density_bins K A)%nat -> (a_density_cache K A <= length xs)%nat -> InLimits K A xs ->
  Wt <> zero K ->
  exists h, out t_weighted_density = VRest (NHist (Ok h)) /\ HistogramMedian K h (out t_with_density_weighted_median).
Proof.
  intros H Hd Hc Hb Hn Hr Hw; assert (Hs : S t_weighted_density) by (apply (also _ _ H Hd); cbn; tauto).
  destruct (wdensity_top K HO (a_lowest K A) (a_highest K A) (a_density_cache K A) (a_density_bins K A) (zero K) (map DPush ws))
    as (d & m & M & E1 & _ & _ & _ & E4); rewrite ?pushes_dens; try assumption.
  { now rewrite weighted_length. }
  { now rewrite weighted_fst. }
  exists (weighted_density_result K d); split; [rewrite (found Hs); cbn [Alone Hist]; now rewrite E1 |].
  rewrite (found H); cbn [Alone Median].
  replace (prov t_density) with t_weighted_density by (symmetry; exact (provided _ _ H Hd)); cbn [Hist]; rewrite E1; cbn [obnd].
  apply hist_median; [lia | apply E4].
  rewrite pushes_dens; rewrite <- weighted_snd in Hw; intros C; apply Hw; rewrite <- C.
  unfold TotalWeight; now rewrite (total_map K).
Qed.

(** From the cumulative distribution: between the two entries after the one half is passed at; undefined if it is the last. *)
Lemma set_distribution_median : S t_with_p_square_cumulative_distribution_median -> Has t_p_square_cumulative_distribution ->
  (1 <= a_cells K A)%nat -> (a_cells K A < length xs)%nat -> (3 <= length xs)%nat ->
  exists ps i x0 y0 x1 y1, out t_p_square_cumulative_distribution = VRest (NHist (Ok ps)) /\ (i < a_cells K A)%nat /\
    nth_error ps i = Some (x0, y0) /\ nth_error ps (Datatypes.S i) = Some (x1, y1) /\
    ltb K y0 (half K) = true /\ ltb K y1 (half K) = false /\
    (Datatypes.S i = a_cells K A -> out t_with_p_square_cumulative_distribution_median = VRest (NOut UB)) /\
    ((Datatypes.S i < a_cells K A)%nat -> exists m x2 y2, nth_error ps (Datatypes.S (Datatypes.S i)) = Some (x2, y2) /\
       out t_with_p_square_cumulative_distribution_median = VRest (NOut (Ok m)) /\ Between K x1 m x2).
Proof.
  intros H Hd Hb Hn H3; assert (Hs : S t_p_square_cumulative_distribution) by (apply (also _ _ H Hd); cbn; tauto).
  destruct (cd_median K HO (a_cells K A) ss) as (s & i & x0 & y0 & x1 & y1 & E & Hi & N1 & N2 & L1 & L2 & HU & HI);
    rewrite ?samples_length; try assumption.
  assert (Em : out t_with_p_square_cumulative_distribution_median = VRest (NOut (cdmed_value K (cd_pairs K s)))).
  { rewrite (found H); cbn [Alone Median].
    replace (prov t_p_square_cumulative_distribution) with t_p_square_cumulative_distribution
      by (symmetry; exact (provided _ _ H Hd)); cbn [Dist]; rewrite E; reflexivity. }
  exists (cd_pairs K s), i, x0, y0, x1, y1; rewrite Em.
  split; [rewrite (found Hs); cbn [Alone Dist]; now rewrite E |].
  do 5 (split; [assumption |]); split.
  - intros Hl; now rewrite (HU Hl).
  - intros Hl; destruct (HI Hl) as (m & x2 & y2 & N3 & -> & Hm); exists m, x2, y2; now split.
Qed.

(** *** Tails *)
Hypothesis HH : HeapContract (a_heap K A).
Hypothesis Hk : (0 < a_tail_cache K A)%nat.
Hypothesis HCeil : CeilSpec K (a_ceil K A).
Local Notation k := (a_tail_cache K A).
Local Notation ceil := (a_ceil K A).
Local Notation pw := (a_pow K A).
Local Notation before s := (fun x y => MoreExtreme K (lr_of s) (p_sample x) (p_sample y)).
Local Notation entries s := (tail_entries K HO A sqrt es HH Hk s).

Lemma set_coherent : forall s, S (t_coherent_tail_mean s) -> Has (t_tail s) ->
  Has (t_non_coherent_tail_mean s) -> Has (t_tail_quantile s) ->
  exists q, out (t_coherent_tail_mean s) = VRest (NFun q) /\
  forall p r, Inside01 K p -> IsCeil K (mul K (ofnat K (length xs)) (TailShare K (lr_of s) p)) r ->
    (r < Nat.min k (length xs))%nat ->
    exists a v, MostExtreme (MoreExtreme K (lr_of s)) ss r a /\ OrderStat (MoreExtreme K (lr_of s)) ss r v /\
      q p = Ok (add K (Mean K a)
                  (mul K (div K v (ofnat K r))
                     (match lr_of s with
                      | Left => p
                      | Right => sub K (sub K (one K) p) (div K (ofnat K r) (ofnat K (length xs)))
                      end))).
Proof.
  intros s H Ht Hm Hq; eexists; split; [exact (found H) |].
  intros p r Hp HI Hr; cbv beta.
  replace (prov t_abstract_non_coherent_tail_mean) with (t_non_coherent_tail_mean s)
    by (symmetry; exact (provided _ (t_non_coherent_tail_mean s) H Hm)).
  replace (prov t_quantile) with (t_tail_quantile s) by (symmetry; exact (provided _ (t_tail_quantile s) H Hq)).
  cbn [TailMean SpecWhole.Quantile].
  replace (prov t_abstract_tail) with (t_tail s) by (symmetry; exact (provided _ (t_tail s) H Ht)).
  destruct (entries s) as (ps & E1 & _ & HT); rewrite E1; cbn [obnd].
  apply (samples_tail K A sqrt es) in HT; rewrite <- (samples_length K xs) in *.
  destruct (ctm_ok K HO ceil HCeil (lr_of s) T (fun x => x) k ss _ HT p r (in01_level K HO _ p Hp) HI Hr) as (v & HV & HM & E).
  exists (firstn r (map p_sample ps)), v; split; [exact HM | split; [exact HV |]].
  rewrite map_id in E; unfold coherent_tail_mean_result in E; rewrite E.
  unfold Mean, average; destruct HM as [-> _]; reflexivity.
Qed.

(** Relative tail variate means: the coordinates' totals over the [r] most extreme calls, by the total of their samples. *)
Lemma set_relative_means : forall s s' v d, S (t_relative_tail_variate_means s v) -> Has (t_tail s) ->
  Has (t_tail_variate s' v) -> Has (t_non_coherent_tail_mean s) ->
  Forall (fun p => length (p_vector p v) = d) xs ->
  exists q, out (t_relative_tail_variate_means s v) = VRest (NVFun q) /\
  forall p r, Inside01 K p -> IsCeil K (mul K (ofnat K (length xs)) (TailShare K (lr_of s) p)) r ->
    (r < Nat.min k (length xs))%nat ->
    exists a, MostExtreme (before s) xs r a /\
      (total K p_sample a <> zero K ->
       exists ms, q p = Ok ms /\ length ms = d /\
         forall i, (i < d)%nat ->
           nth i ms (zero K) = div K (total K (fun e => nth i (p_vector e v) (zero K)) a) (total K p_sample a)).
Proof.
  intros s s' v d H Ht Hv Hm Hd; eexists; split; [exact (found H) |].
  intros p r Hp HI Hr; cbv beta.
  replace (prov t_abstract_tail_variate) with (t_tail_variate s' v) by (symmetry; exact (provided _ (t_tail_variate s' v) H Hv)).
  replace (prov t_abstract_non_coherent_tail_mean) with (t_non_coherent_tail_mean s)
    by (symmetry; exact (provided _ (t_non_coherent_tail_mean s) H Hm)).
  cbn [TailVariates TailMean].
  replace (prov t_abstract_tail) with (t_tail s) by (symmetry; exact (provided _ (t_tail s) H Ht)).
  destruct (entries s) as (ps & E1 & E2 & HT); rewrite E1, E2; cbn [obnd].
  exists (firstn r ps); split.
  { destruct (tvm_ok K HO ceil HCeil (lr_of s) (pack K) p_sample k xs ps HT (fun p => p_vector p v) d Hd false p r
              (in01_level K HO _ p Hp) HI Hr) as (ms & _ & _ & M3 & _); [discriminate | exact M3]. }
  intros HZ.
  destruct (tvm_ok K HO ceil HCeil (lr_of s) (pack K) p_sample k xs ps HT (fun p => p_vector p v) d Hd true p r
              (in01_level K HO _ p Hp) HI Hr) as (ms & M1 & M2 & _ & _ & M5); [intros _; exact HZ |].
  exists ms; split; [exact M1 | split; [exact M2 | exact M5]].
Qed.

(** Weighted tail variate means: [a] then [v] are the most extreme calls, [v] the first one at which their weights
    reach the level; if they never do, no number of steps ends the extraction. *)
Lemma set_weighted_variate_means : forall (rel : bool) s s' s'' v d,
  let t := if rel then t_relative_weighted_tail_variate_means s v else t_absolute_weighted_tail_variate_means s v in
  S t -> Has (t_tail s) -> Has (t_tail_variate s' v) -> Has (t_tail_weights s'') -> Has (t_non_coherent_weighted_tail_mean s) ->
  Forall (fun p => length (p_vector p v) = d) xs ->
  exists q, out t = VRest (NLoop q) /\
  forall p, let thr := mul K Wt (TailShare K (lr_of s) p) in ltb K (zero K) thr = true ->
    (exists a l, ReachesAt K (before s) p_weight xs thr a l /\
       let moment := total K (fun e => mul K (p_sample e) (p_weight e)) (a ++ [l]) in
       ((rel = true -> moment <> zero K) ->
        exists ms, (exists enough, forall fuel, (enough <= fuel)%nat -> q fuel p = Some (Ok ms)) /\ length ms = d /\
          forall i, (i < d)%nat ->
            nth i ms (zero K) = div K (total K (fun e => mul K (nth i (p_vector e v) (zero K)) (p_weight e)) (a ++ [l]))
                                  (if rel then moment else total K p_weight (a ++ [l]))))
    \/ ((exists ps, IsTail (before s) k xs ps /\ forall a b, ps = a ++ b -> ltb K (total K p_weight a) thr = true) /\
        forall fuel, q fuel p = None).
Proof.
  intros rel s s' s'' v d t H Ht Hv Hw Hm Hd.
  assert (Et : Alone K A prov xs t
    = NLoop (fun fuel p =>
        match TailWeights K A prov xs (prov t_abstract_tail_weights), TailVariates K A prov xs (prov t_abstract_tail_variate) with
        | Ok ws, Ok tv => weighted_tail_variate_means_of K (lr_of s) fuel rel
            (TailMean K A prov xs (prov t_abstract_non_coherent_tail_mean) p) Wt ws tv p
        | _, _ => Some UB
        end)) by (unfold t; destruct rel; reflexivity).
  eexists; split.
  { rewrite (extracted K A sqrt HK enum W fs es t H); [| unfold t; destruct rel; reflexivity]; rewrite Et; reflexivity. }
  intros p thr Hthr; cbv beta.
  replace (prov t_abstract_tail_variate) with (t_tail_variate s' v) by (symmetry; exact (provided _ (t_tail_variate s' v) H Hv)).
  replace (prov t_abstract_tail_weights) with (t_tail_weights s'') by (symmetry; exact (provided _ (t_tail_weights s'') H Hw)).
  replace (prov t_abstract_non_coherent_tail_mean) with (t_non_coherent_weighted_tail_mean s)
    by (symmetry; exact (provided _ (t_non_coherent_weighted_tail_mean s) H Hm)).
  cbn [TailVariates TailMean TailWeights].
  replace (prov t_abstract_tail_weights) with (t_tail_weights s'') by (symmetry; exact (provided _ (t_tail_weights s'') H Hw)).
  cbn [TailWeights].
  replace (prov t_abstract_tail) with (t_tail s) by (symmetry; exact (provided _ (t_tail s) H Ht)).
  destruct (entries s) as (ps & E1 & E2 & HT); rewrite E1, E2; cbn [obnd].
  destruct (wvariate_cases K HO (lr_of s) (pack K) p_sample k xs ps HT (fun p => p_vector p v) d Hd p_weight Wt p Hthr) as [(a & l & HR & HV) | HN].
  - left; exists a, l; split; [exact HR |]; intros Hrel.
    destruct (HV rel Hrel) as (ms & M1 & M2 & M3); exists ms; split; [| split; [exact M2 | exact M3]].
    exists (Datatypes.S (length ps)); intros fuel Hf; exact (M1 fuel Hf).
  - right; split; [now exists ps |].
    exact (wvariate_diverges K HO (lr_of s) (pack K) p_sample k xs ps HT (fun p => p_vector p v) p_weight rel Wt p Hthr HN).
Qed.

(** *** Peaks over threshold
    The quantile and the tail mean of a set build on the fit the set reports. *)
Lemma set_fit_quantile : forall f q m s fit, Fitted f q m s -> S q -> Has f -> out f = VRest (NFit fit) ->
  exists g, out q = VRest (NFun g) /\ forall p, g p = obnd fit (fun f => Ok (pot_quantile_result K pw (lr_of s) f p)).
Proof.
  intros f q m s fit HF H Hf E.
  assert (Hs : S f) by (apply (also _ _ H Hf); destruct HF as [(-> & -> & _) | [(-> & -> & _) | [(-> & -> & _) | (-> & -> & _)]]]; cbn; tauto).
  assert (P : prov t_abstract_peaks_over_threshold = f).
  { rewrite <- (provided _ _ H Hf); destruct HF as [(-> & _) | [(-> & _) | [(-> & _) | (-> & _)]]]; reflexivity. }
  assert (Ef : SpecWhole.Fit K A prov xs f = fit).
  { destruct HF as [(-> & _) | [(-> & _) | [(-> & _) | (-> & _)]]]; rewrite (found Hs) in E; cbn [Alone] in E; injection E as E; exact E. }
  exists (fun p => obnd fit (fun f => Ok (pot_quantile_result K pw (lr_of s) f p))); split; [| reflexivity].
  rewrite <- Ef, <- P.
  destruct HF as [(_ & -> & _) | [(_ & -> & _) | [(_ & -> & _) | (_ & -> & _)]]]; exact (found H).
Qed.
Lemma set_fit_mean : forall f q m s fit, Fitted f q m s -> S m -> Has f -> Has q -> out f = VRest (NFit (Ok fit)) ->
  snd fit <> one K ->
  exists g, out m = VRest (NFun g) /\ forall p, g p = Ok (pot_tail_mean_result K pw (lr_of s) fit p).
Proof.
  intros f q m s fit HF H Hf Hq E H1.
  assert (Hs : S f) by (apply (also _ _ H Hf); destruct HF as [(-> & _ & ->) | [(-> & _ & ->) | [(-> & _ & ->) | (-> & _ & ->)]]]; cbn; tauto).
  assert (P : prov t_abstract_peaks_over_threshold = f).
  { rewrite <- (provided _ _ H Hf); destruct HF as [(-> & _) | [(-> & _) | [(-> & _) | (-> & _)]]]; reflexivity. }
  assert (Q : prov t_quantile = q).
  { rewrite <- (provided _ _ H Hq); destruct HF as [(_ & -> & _) | [(_ & -> & _) | [(_ & -> & _) | (_ & -> & _)]]]; reflexivity. }
  assert (Ef : SpecWhole.Fit K A prov xs f = Ok fit).
  { destruct HF as [(-> & _) | [(-> & _) | [(-> & _) | (-> & _)]]]; rewrite (found Hs) in E; cbn [Alone] in E; injection E as E; exact E. }
  assert (Em : out m = VRest (NFun (fun p => obnd (SpecWhole.Fit K A prov xs f)
      (fun f' => pot_tail_mean_at K A s (SpecWhole.Quantile K A prov xs q p) f' p)))).
  { rewrite <- P, <- Q; destruct HF as [(_ & _ & ->) | [(_ & _ & ->) | [(_ & _ & ->) | (_ & _ & ->)]]]; exact (found H). }
  assert (Eq : forall p, SpecWhole.Quantile K A prov xs q p = Ok (pot_quantile_result K pw (lr_of s) fit p)).
  { intros p; destruct HF as [(_ & -> & _) | [(_ & -> & _) | [(_ & -> & _) | (_ & -> & _)]]]; cbn [SpecWhole.Quantile]; rewrite P, Ef; reflexivity. }
  eexists; split; [exact Em |]; intros p; cbv beta; rewrite Ef, Eq; cbn [obnd]; unfold pot_tail_mean_at.
  destruct (keqb K (snd fit) (one K)) eqn:E1; [exfalso; apply H1; now apply (keqb_true K HO) in E1 | reflexivity].
Qed.

Lemma set_weighted_pot : forall s, S (t_weighted_peaks_over_threshold s) ->
  let u := Mirror K (lr_of s) (a_threshold K A) in
  let ys := WExceedances K (lr_of s) (a_threshold K A) ws in
  TotalWeight K ws <> zero K -> TotalWeight K ys <> zero K -> WVariance K ys <> zero K ->
  Xi K (WMean K ys) (WVariance K ys) u <> zero K ->
  out (t_weighted_peaks_over_threshold s) =
    VRest (NFit (Ok (PotParameters K pw (WMean K ys) (WVariance K ys) u (div K (TotalWeight K ys) (TotalWeight K ws))))).
Proof.
  intros s H u ys H1 H2 H3 H4; rewrite (found H); cbn [Alone Fit].
  replace (map (fun p : pack K => PPush K (p_sample p) (p_weight p)) xs) with (map (fun e => PPush K (fst e) (snd e)) ws)
    by (unfold weighted_samples; rewrite map_map; reflexivity).
  change [PExtract K] with (repeat (PExtract K) 1).
  rewrite (wpot_first K HO pw (lr_of s) (a_threshold K A) ws 1 H1 H2 H3 H4); reflexivity.
Qed.

Lemma set_pot_prob : forall s, S (t_peaks_over_threshold_prob s) -> Has (t_tail s) ->
  let p := a_threshold_probability K A in
  forall r, Inside01 K p -> IsCeil K (mul K (ofnat K (length xs)) (TailShare K (lr_of s) p)) r ->
    ((r < Nat.min k (length xs))%nat ->
       exists a v, MostExtreme (MoreExtreme K (lr_of s)) ss r a /\ OrderStat (MoreExtreme K (lr_of s)) ss r v /\
         let ys := map (Mirror K (lr_of s)) a in
         let u := Mirror K (lr_of s) v in
         (Variance K ys <> zero K -> Xi K (Mean K ys) (Variance K ys) u <> zero K ->
          out (t_peaks_over_threshold_prob s) =
            VRest (NFit (Ok (PotParameters K pw (Mean K ys) (Variance K ys) u (TailShare K (lr_of s) p)))))) /\
    ((Nat.min k (length xs) <= r)%nat -> out (t_peaks_over_threshold_prob s) = VRest (NFit NotANumber)).
Proof.
  intros s H Ht p r Hp HI.
  assert (P : prov t_abstract_tail = t_tail s) by exact (provided _ (t_tail s) H Ht).
  destruct (entries s) as (ps & E1 & _ & HT).
  apply (samples_tail K A sqrt es) in HT; rewrite <- (samples_length K xs) in *.
  destruct (ppot_tail K HO pw (lr_of s) ceil HCeil k ss _ HT p r Hp HI) as [HA HN].
  rewrite (found H); cbn [Alone Fit]; rewrite P, E1; cbn [obnd]; rewrite <- (samples_length K xs).
  split; intros Hr.
  - destruct (HA Hr) as (a & v & Ha & Hv & HF); exists a, v; split; [exact Ha | split; [exact Hv |]].
    intros H1 H2; destruct (HF H1 H2) as (st & E & _); fold p; rewrite E; reflexivity.
  - destruct (HN Hr) as (st & E); fold p; rewrite E; reflexivity.
Qed.

Lemma set_weighted_pot_prob : forall s s', S (t_weighted_peaks_over_threshold_prob s) -> Has (t_tail s) -> Has (t_tail_weights s') ->
  let p := a_threshold_probability K A in
  let thr := mul K (TotalWeight K ws) (TailShare K (lr_of s) p) in ltb K (zero K) thr = true ->
    (exists a v, ReachesAt K (fun x y => MoreExtreme K (lr_of s) (fst x) (fst y)) snd ws thr a v /\
       let ys := map (fun e => (Mirror K (lr_of s) (fst e), snd e)) (a ++ [v]) in
       let u := Mirror K (lr_of s) (fst v) in
       (WVariance K ys <> zero K -> Xi K (WMean K ys) (WVariance K ys) u <> zero K ->
        out (t_weighted_peaks_over_threshold_prob s) =
          VRest (NFit (Ok (PotParameters K pw (WMean K ys) (WVariance K ys) u (TailShare K (lr_of s) p))))))
    \/ (out (t_weighted_peaks_over_threshold_prob s) = VRest (NFit NotANumber) /\
        exists tl, IsTail (fun x y => MoreExtreme K (lr_of s) (fst x) (fst y)) k ws tl /\ ltb K (TotalWeight K tl) thr = true).
Proof.
  intros s s' H Ht Hw p thr Hthr.
  assert (P : prov t_abstract_tail = t_tail s) by exact (provided _ (t_tail s) H Ht).
  assert (Q : prov t_abstract_tail_weights = t_tail_weights s') by exact (provided _ (t_tail_weights s') H Hw).
  destruct (entries s) as (ps & E1 & E2 & HT).
  assert (HT' : IsTail (fun x y => MoreExtreme K (lr_of s) (fst x) (fst y)) k ws (map (fun p => (p_sample p, p_weight p)) ps))
    by exact (IsTail_map (fun p => (p_sample p, p_weight p)) (fun x y => MoreExtreme K (lr_of s) (fst x) (fst y)) k xs ps HT).
  assert (EW : Wt = TotalWeight K ws).
  { rewrite <- weighted_snd; unfold TotalWeight; now rewrite (total_map K). }
  rewrite (found H); cbn [Alone Fit]; rewrite P, Q; cbn [TailWeights]; rewrite P, E1, E2; cbn [obnd]; rewrite EW.
  assert (M1 : map (fun e => fst e) (map (fun p : pack K => (p_sample p, p_weight p)) ps) = map p_sample ps)
    by (rewrite map_map; reflexivity).
  assert (M2 : map (fun e => snd e) (map (fun p : pack K => (p_sample p, p_weight p)) ps) = map p_weight ps)
    by (rewrite map_map; reflexivity).
  destruct (wppot_tail K HO pw (lr_of s) k ws _ HT' p Hthr) as [(a & v & HR & HF) | [HL (st & E)]]; rewrite M1, M2 in *.
  - left; exists a, v; split; [exact HR |].
    intros H1 H2; destruct (HF H1 H2) as (st & E & _); fold p; rewrite E; reflexivity.
  - right; fold p; rewrite E; split; [reflexivity |].
    eexists; split; [exact HT' |]; unfold TotalWeight; rewrite (total_map K); cbn [snd]; rewrite (total_map K) in HL; exact HL.
Qed.
End More.
