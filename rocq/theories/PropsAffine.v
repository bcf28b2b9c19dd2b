(** C67: change of the unit of the samples. *)
From Coq Require Import List Arith Bool Permutation QArith Qcanon.
From Verif Require Import Num NumFacts ModelBasic ModelTail ModelPot ModelDensity ModelPSquare SpecStats SpecDensity SpecTail SpecPot SpecPSquare SpecAffine
  ProofOrder ProofTail ProofAffine2 ProofAffine4.
Import ListNotations.

(** The samples are measured in another unit: every x becomes a x + b.  Means follow, variances and covariances take the
    square (the product) of the factors, *)
Theorem C67_moments : forall (K : Num), OrderedLaws K -> forall (a b : car K) (xs : list (car K)), xs <> [] ->
  let ys := map (Affine K a b) xs in
  mean_set_mean K (mean_set_run K (zero K) ys) = Affine K a b (mean_set_mean K (mean_set_run K (zero K) xs)) /\
  im_mean K (imean_set_run K (zero K) ys) = Affine K a b (im_mean K (imean_set_run K (zero K) xs)) /\
  vs_var K (var_set_run K (zero K) ys) = mul K (mul K a a) (vs_var K (var_set_run K (zero K) xs)) /\
  exists v, lazy_variance_run K (zero K) xs = Some v /\ lazy_variance_run K (zero K) ys = Some (mul K (mul K a a) v).
Proof. exact moments_unit. Qed.
Print Assumptions C67_moments.
Theorem C67_weighted_moments : forall (K : Num), OrderedLaws K -> forall (a b : car K) (h : list (car K * car K)),
  h <> [] -> PrefixWeightsNonzero K h ->
  let h' := map (fun e => (Affine K a b (fst e), snd e)) h in
  wmean_set_mean K (wmean_set_run K (zero K) (zero K) h') = Affine K a b (wmean_set_mean K (wmean_set_run K (zero K) (zero K) h)) /\
  wv_mean K (wvar_set_run K (zero K) (zero K) h') = Affine K a b (wv_mean K (wvar_set_run K (zero K) (zero K) h)) /\
  wv_var K (wvar_set_run K (zero K) (zero K) h') = mul K (mul K a a) (wv_var K (wvar_set_run K (zero K) (zero K) h)).
Proof. exact weighted_moments_unit. Qed.
Print Assumptions C67_weighted_moments.
Theorem C67_covariance : forall (K : Num), OrderedLaws K -> forall (a b c d : car K) (h : list (car K * car K)), h <> [] ->
  cs_cov K (cov_set_run K (zero K) (zero K) (map (fun e => (Affine K a b (fst e), Affine K c d (snd e))) h))
  = mul K (mul K a c) (cs_cov K (cov_set_run K (zero K) (zero K) h)).
Proof. exact covariance_unit. Qed.
Print Assumptions C67_covariance.

(** P-square estimates (a > 0) follow: a single quantile, *)
Theorem C67_p_square : forall (K : Num), OrderedLaws K -> forall a b : car K, ltb K (zero K) a = true ->
  forall (p : car K) (xs : list (car K)), (5 <= length xs)%nat ->
  exists s s' r, pq_run K p xs = Ok s /\ pq_run K p (map (Affine K a b) xs) = Ok s' /\
    pq_result K s = Ok r /\ pq_result K s' = Ok (Affine K a b r).
Proof. exact pq_affine. Qed.
Print Assumptions C67_p_square.
Theorem C67_weighted_p_square : forall (K : Num), OrderedLaws K -> forall a b : car K, ltb K (zero K) a = true ->
  forall (p : car K) (es : list (car K * car K)), (5 <= length es)%nat -> Forall (fun e => ltb K (zero K) (snd e) = true) es ->
  exists s s' r, wpq_run K p es = Ok s /\ wpq_run K p (map (fun e => (Affine K a b (fst e), snd e)) es) = Ok s' /\
    pq_result K s = Ok r /\ pq_result K s' = Ok (Affine K a b r).
Proof. exact wpq_affine. Qed.
Print Assumptions C67_weighted_p_square.
(** the whole distribution function and the median read from it, *)
Theorem C67_distribution : forall (K : Num), OrderedLaws K -> forall a b : car K, ltb K (zero K) a = true ->
  forall (n : nat) (xs : list (car K)), (1 <= n)%nat -> (n < length xs)%nat ->
  exists s s', cd_run K n xs = Ok s /\ cd_run K n (map (Affine K a b) xs) = Ok s' /\
    cd_pairs K s' = map (fun e => (Affine K a b (fst e), snd e)) (cd_pairs K s) /\
    cdmed_value K (cd_pairs K s') = obnd (cdmed_value K (cd_pairs K s)) (fun m => Ok (Affine K a b m)).
Proof. exact cd_affine. Qed.
Print Assumptions C67_distribution.
Theorem C67_weighted_distribution : forall (K : Num), OrderedLaws K -> forall a b : car K, ltb K (zero K) a = true ->
  forall (n : nat) (es : list (car K * car K)), (1 <= n)%nat -> (n < length es)%nat ->
  Forall (fun e => ltb K (zero K) (snd e) = true) es ->
  exists s s', wcd_run K n es = Ok s /\ wcd_run K n (map (fun e => (Affine K a b (fst e), snd e)) es) = Ok s' /\
    wcd_pairs K s' = map (fun e => (Affine K a b (fst e), snd e)) (wcd_pairs K s) /\
    cdmed_value K (wcd_pairs K s') = obnd (cdmed_value K (wcd_pairs K s)) (fun m => Ok (Affine K a b m)).
Proof. exact wcd_affine. Qed.
Print Assumptions C67_weighted_distribution.
(** several quantiles, and what is interpolated between them: *)
Theorem C67_extended : forall (K : Num), OrderedLaws K -> forall a b : car K, ltb K (zero K) a = true ->
  forall (probs xs : list (car K)), (2 * length probs + 3 <= length xs)%nat ->
  exists s s' rs, ext_run K probs xs = Ok s /\ ext_run K probs (map (Affine K a b) xs) = Ok s' /\
    ext_result K probs s = Ok rs /\ ext_result K probs s' = Ok (map (Affine K a b) rs) /\
    forall ip p, eps_quantile K ip probs (map (Affine K a b) rs) p = obnd (eps_quantile K ip probs rs p) (fun v => Ok (Affine K a b v)).
Proof. exact ext_affine. Qed.
Print Assumptions C67_extended.
Theorem C67_weighted_extended : forall (K : Num), OrderedLaws K -> forall a b : car K, ltb K (zero K) a = true ->
  forall (probs : list (car K)) (es : list (car K * car K)), probs <> [] -> (2 * length probs + 3 <= length es)%nat ->
  Forall (fun e => ltb K (zero K) (snd e) = true) es ->
  exists s s' rs, wext_run K probs es = Ok s /\ wext_run K probs (map (fun e => (Affine K a b (fst e), snd e)) es) = Ok s' /\
    ext_result K probs s = Ok rs /\ ext_result K probs s' = Ok (map (Affine K a b) rs).
Proof. exact wext_affine. Qed.
Print Assumptions C67_weighted_extended.

(** The density histogram keeps its fractions, the borders of the bins follow ([lo], [hi], [lo'], [hi'] are the limits of
    the sample type, in either unit). *)
Theorem C67_density : forall (K : Num), OrderedLaws K -> forall a b : car K, ltb K (zero K) a = true ->
  forall (lo hi lo' hi' : car K) (c n : nat) (s0 : car K) (ops : list (dens_op (car K))), let xs := dens_pushes ops in
  (1 <= c)%nat -> (1 <= n)%nat -> (c <= length xs)%nat ->
  Forall (fun x => ltb K x lo = false /\ ltb K hi x = false) xs ->
  Forall (fun x => ltb K x lo' = false /\ ltb K hi' x = false) (map (Affine K a b) xs) ->
  exists s s', density_run K lo hi c n s0 ops = Ok s /\ density_run K lo' hi' c n s0 (map (in_unit_d K (Affine K a b)) ops) = Ok s' /\
    density_result K s' = map (fun e => (Affine K a b (fst e), snd e)) (density_result K s).
Proof. exact density_affine. Qed.
Print Assumptions C67_density.

(** Tails follow for any factor but zero, a negative one exchanging the sides; so do tail quantiles and non-coherent tail
    means. *)
Theorem C67_tail : forall (K : Num), OrderedLaws K -> forall a b : car K, a <> zero K -> forall (lr : side) (ceil : car K -> nat)
  (H : HeapOps), HeapContract H -> forall (V : Type) (k nv : nat) (dA dA' : car K) (dV : V) (ops : list (tail_op (car K) V)),
  (0 < k)%nat -> WellFormed nv ops -> let lr' := ImageSide K a lr in let g := Affine K a b in
  exists s s' t, tail_run H (tail_pred K lr) (tail_init k nv dA dV) ops = Ok s /\
    tail_run H (tail_pred K lr') (tail_init k nv dA' dV) (map (in_unit_t K g) ops) = Ok s' /\
    tail_result H (tail_pred K lr) s = Ok t /\ tail_result H (tail_pred K lr') s' = Ok (map g t) /\
    (NoDup (map fst (pushes ops)) -> forall j, (j < nv)%nat ->
      exists vals, tail_variate_result H (tail_pred K lr) s j = Ok vals /\ tail_variate_result H (tail_pred K lr') s' j = Ok vals) /\
    forall cnt p, let p' := ImageLevel K a p in
      tail_quantile_result K ceil lr' cnt (map g t) p' = in_unit g (tail_quantile_result K ceil lr cnt t p) /\
      non_coherent_tail_mean_result K ceil lr' cnt (map g t) p' = in_unit g (non_coherent_tail_mean_result K ceil lr cnt t p).
Proof. exact tail_unit. Qed.
Print Assumptions C67_tail.
Theorem C67_weighted_tail : forall (K : Num), OrderedLaws K -> forall a b : car K, forall (lr : side)
  (wtot p : car K) (tl ws : list (car K)), let p' := ImageLevel K a p in let lr' := ImageSide K a lr in let g := Affine K a b in
  weighted_tail_quantile_result K lr' wtot (map g tl) ws p' = in_unit g (weighted_tail_quantile_result K lr wtot tl ws p) /\
  (ltb K (zero K) (mul K wtot (TailShare K lr p)) = true -> length ws = length tl ->
   non_coherent_weighted_tail_mean_result K lr' wtot (map g tl) ws p' = in_unit g (non_coherent_weighted_tail_mean_result K lr wtot tl ws p)).
Proof. exact weighted_tail_unit. Qed.
Print Assumptions C67_weighted_tail.
(** The first fit to the peaks over a threshold follows as a scale and a place should, the shape is the same, and so the
    quantiles read from it follow. *)
Theorem C67_peaks : forall (K : Num), OrderedLaws K -> forall a b : car K, a <> zero K -> forall (lr : side)
  (pw : car K -> car K -> car K) (thr : car K) (xs : list (car K)), let lr' := ImageSide K a lr in let g := Affine K a b in
  let other_fit := fun t : car K * car K * car K => let '(u, be, xi) := t in
    (add K (mul K (Absolute K a) u) (Mirror K lr' b), mul K (Absolute K a) be, xi) in
  pot_out K pw lr' (zero K) (g thr) (map (fun x => PPush K (g x) (one K)) xs ++ [PExtract K])
  = map (in_unit other_fit) (pot_out K pw lr (zero K) thr (map (fun x => PPush K x (one K)) xs ++ [PExtract K])) /\
  forall fit p, pot_quantile_result K pw lr' (other_fit fit) (ImageLevel K a p) = g (pot_quantile_result K pw lr fit p).
Proof. exact pot_unit. Qed.
Print Assumptions C67_peaks.

(** Coherent tail means follow a change of scale, *)
Theorem C67_coherent_partial : forall (K : Num), OrderedLaws K -> forall (a : car K) (lr : side) (ceil : car K -> nat) (cnt : nat)
  (tl : list (car K)) (p : car K),
  coherent_tail_mean_result K ceil lr cnt (map (Affine K a (zero K)) tl) p
  = in_unit (Affine K a (zero K)) (coherent_tail_mean_result K ceil lr cnt tl p).
Proof. exact coherent_scale. Qed.
Print Assumptions C67_coherent_partial.
(** but not a shift: four samples 0 have the coherent tail mean 0, four samples 1 have 19/20. *)
Theorem C67_coherent_shift_refuted : exists (p : Qc) (tl : list Qc) (r r' : Qc), Inside01 QcN p /\
  coherent_tail_mean_result QcN Qc_ceil Right (length tl) tl p = Ok r /\
  coherent_tail_mean_result QcN Qc_ceil Right (length tl) (map (Affine QcN (one QcN) (one QcN)) tl) p = Ok r' /\
  r' <> Affine QcN (one QcN) (one QcN) r.
Proof. exact coherent_shift_refuted. Qed.
Print Assumptions C67_coherent_shift_refuted.
(** P-square is not symmetric: the median of samples symmetric about 3 is not estimated as 3, and reflecting the samples
    does not reflect the estimate. *)
Theorem C67_p_square_mirror_refuted : exists (xs : list Qc) s s' r r',
  Permutation (map (fun x => Qcminus (Q2Qc 6) x) xs) xs /\
  pq_run QcN (half QcN) xs = Ok s /\ pq_result QcN s = Ok r /\
  pq_run QcN (half QcN) (map (fun x => Qcminus (Q2Qc 6) x) xs) = Ok s' /\ pq_result QcN s' = Ok r' /\
  r' <> Qcminus (Q2Qc 6) r /\ r <> Q2Qc 3.
Proof. exact p_square_mirror_refuted. Qed.
Print Assumptions C67_p_square_mirror_refuted.

(** The hypotheses are met: degrees Celsius to Fahrenheit. *)
Definition q (n : Z) : Qc := Q2Qc (inject_Z n).
Example C67_ex_unit : OrderedLaws QcN /\ ltb QcN (zero QcN) (Q2Qc (9#5)) = true /\ Affine QcN (Q2Qc (9#5)) (q 32) (q 100) = q 212.
Proof. split; [exact QcN_ordered|]. split; [reflexivity|]. apply Qc_is_canon. reflexivity. Qed.
Definition ex_t := [5; 20; 15; 30; 10; 25; 17; 40; 12; 3]%Z.
Definition read {A : Type} (f : A -> outcome Qc) (o : outcome A) : option Q := match o with Ok s => match f s with Ok r => Some (this r) | _ => None end | _ => None end.
Example C67_ex_p_square :
  read (pq_result QcN) (pq_run QcN (half QcN) (map q ex_t)) = Some (55#3)%Q /\
  read (pq_result QcN) (pq_run QcN (half QcN) (map (Affine QcN (Q2Qc (9#5)) (q 32)) (map q ex_t))) = Some 65%Q.
Proof. vm_compute. split; reflexivity. Qed.
Example C67_ex_ops : WellFormed 1 [TPush (q 5) [tt]; TExtract; TPush (q 20) [tt]; TPush (q 15) [tt]] /\
  NoDup (map fst (pushes [TPush (q 5) [tt]; TExtract; TPush (q 20) [tt]; TPush (q 15) [tt]])) /\
  ImageSide QcN (q (-1)) Left = Right /\ ImageLevel QcN (q (-1)) (Q2Qc (1#4)) = Q2Qc (3#4).
Proof.
  split; [repeat constructor|]. split; [|split; [reflexivity|apply Qc_is_canon; reflexivity]].
  cbn. repeat constructor; cbn; intros H; repeat destruct H as [H|H]; try (apply (f_equal this) in H; discriminate); exact H.
Qed.
