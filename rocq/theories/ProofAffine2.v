(** Instances of the change of unit for the P-square family, and the density. *)
From Coq Require Import List Arith Bool Lia Field Permutation Sorted QArith Qcanon.
From Verif Require Import Num NumFacts ModelRolling ModelDensity ModelPSquare SpecStats SpecDensity SpecTail SpecPSquare
  ProofBasic ProofOrder ProofRollingBuf ProofTail ProofPSquare ProofPSquareRun ProofPSquareW ProofPSquareInst ProofPSquareMore ProofPSquareEx
  ProofDensityTop ProofAffine.
Import ListNotations.

Section Inst.
Variable K : Num.
Hypothesis HO : OrderedLaws K.
Let HK : FieldLaws K := ord_field K HO.
Local Notation T := (car K).
Local Notation "0" := (zero K) : num_scope.
Local Notation "1" := (one K) : num_scope.
Local Notation "x + y" := (add K x y) : num_scope.
Local Notation "x - y" := (sub K x y) : num_scope.
Local Notation "x * y" := (mul K x y) : num_scope.
Local Notation "x / y" := (div K x y) : num_scope.
Local Notation "# n" := (ofnat K n) (at level 2) : num_scope.
Local Open Scope num_scope.
Add Field KfieldAff2 : (fl_field K HK).
Variables a b : T.
Hypothesis Ha : ltb K 0 a = true.
Local Notation f := (aff K a b).

Lemma units_aff xs : units K (map f xs) = map (affe K a b) (units K xs).
Proof. unfold units. rewrite !map_map. reflexivity. Qed.
Lemma affe_fst es : map fst (map (affe K a b) es) = map f (map fst es).
Proof. rewrite !map_map. reflexivity. Qed.
Lemma affe_pos es : Forall (fun e => ltb K 0 (snd e) = true) es -> Forall (fun e => ltb K 0 (snd e) = true) (map (affe K a b) es).
Proof. intros H. apply Forall_forall. intros e He. apply in_map_iff in He. destruct He as (x & <- & Hx). rewrite Forall_forall in H. exact (H x Hx). Qed.

Lemma pq_result_aff s r : pq_result K s = Ok r -> pq_result K (affs K a b s) = Ok (f r).
Proof.
  unfold pq_result. cbn [affs ps_marks affm mh]. rewrite nth_error_map. destruct (nth_error _ 2); [|discriminate].
  intros E. injection E as <-. reflexivity.
Qed.
Lemma pq_affine p xs : (5 <= length xs)%nat -> exists s s' r, pq_run K p xs = Ok s /\ pq_run K p (map f xs) = Ok s' /\
  pq_result K s = Ok r /\ pq_result K s' = Ok (f r).
Proof.
  intros HL. destruct (pq_main K HO p xs HL) as (s & r & lo & hi & E & _ & _ & _ & Er & _).
  exists s, (affs K a b s), r. split; [exact E|]. split; [|split; [exact Er|apply pq_result_aff; exact Er]].
  unfold pq_run in *. rewrite units_aff, (aff_run K HO a b Ha); try reflexivity; [rewrite E; reflexivity|lia|].
  unfold units. rewrite map_length. exact HL.
Qed.
Lemma wpq_affine p es : (5 <= length es)%nat -> Forall (fun e => ltb K 0 (snd e) = true) es ->
  exists s s' r, wpq_run K p es = Ok s /\ wpq_run K p (map (fun e => (f (fst e), snd e)) es) = Ok s' /\
  pq_result K s = Ok r /\ pq_result K s' = Ok (f r).
Proof.
  intros HL HP. destruct (wpq_main K HO p es HL HP) as (s & r & lo & hi & E & _ & _ & _ & Er & _).
  exists s, (affs K a b s), r. split; [exact E|]. split; [|split; [exact Er|apply pq_result_aff; exact Er]].
  unfold wpq_run in *. change (map (fun e => (f (fst e), snd e)) es) with (map (affe K a b) es).
  rewrite (aff_run K HO a b Ha); try reflexivity; [rewrite E; reflexivity|lia|exact HL].
Qed.

(** *** The distributions and the median read from them *)
Lemma half_index_aff (h : list (T * T)) : half_index K (map (affe K a b) h) = half_index K h.
Proof. induction h as [|e h IH]; cbn [map half_index]; [reflexivity|]. cbn [affe snd]. destruct (ltb K (snd e) (half K)); [rewrite IH|]; reflexivity. Qed.
Lemma cdmed_aff (h : list (T * T)) : cdmed_value K (map (affe K a b) h) = obnd (cdmed_value K h) (fun m => Ok (f m)).
Proof.
  unfold cdmed_value. rewrite half_index_aff. destruct (half_index K h) as [[|j]| |]; cbn [obnd]; try reflexivity.
  rewrite !nth_error_map. destruct (nth_error h (S j)) as [[x y]|]; [|reflexivity]. destruct (nth_error h j) as [[x0 y0]|]; [|reflexivity].
  destruct (nth_error h (S (S j))) as [[x1 y1]|]; [|reflexivity]. cbn [option_map affe fst snd obnd]. f_equal. unfold aff. ring.
Qed.
Lemma combine_affe h (p : list T) (g : T -> T) :
  map (fun hp => (fst hp, g (snd hp))) (combine (map f h) p) = map (affe K a b) (map (fun hp => (fst hp, g (snd hp))) (combine h p)).
Proof. revert p; induction h as [|x h IH]; intros [|y p]; cbn; try reflexivity. f_equal. apply IH. Qed.
Lemma cd_affine n xs : (1 <= n)%nat -> (n < length xs)%nat -> exists s s', cd_run K n xs = Ok s /\ cd_run K n (map f xs) = Ok s' /\
  cd_pairs K s' = map (fun e => (f (fst e), snd e)) (cd_pairs K s) /\
  cdmed_value K (cd_pairs K s') = obnd (cdmed_value K (cd_pairs K s)) (fun m => Ok (f m)).
Proof.
  intros Hn HL. destruct (cd_main K HO n xs Hn HL) as (s & lo & hi & E & _).
  assert (P : cd_pairs K (affs K a b s) = map (affe K a b) (cd_pairs K s)).
  { unfold cd_pairs. cbn [affs ps_marks affm mh mp ps_count]. apply (combine_affe _ _ (fun y => y / #(ps_count K s))). }
  exists s, (affs K a b s). split; [exact E|]. split; [|split; [exact P|rewrite P; apply cdmed_aff]].
  unfold cd_run in *. rewrite units_aff, (aff_run K HO a b Ha); [rewrite E; reflexivity|lia| | | |].
  - cbn. apply repeat_length.
  - cbn. rewrite map_length, seq_length. reflexivity.
  - cbn. rewrite map_length, seq_length. reflexivity.
  - unfold units. rewrite map_length. lia.
Qed.
Lemma wcd_affine n es : (1 <= n)%nat -> (n < length es)%nat -> Forall (fun e => ltb K 0 (snd e) = true) es ->
  exists s s', wcd_run K n es = Ok s /\ wcd_run K n (map (fun e => (f (fst e), snd e)) es) = Ok s' /\
  wcd_pairs K s' = map (fun e => (f (fst e), snd e)) (wcd_pairs K s) /\
  cdmed_value K (wcd_pairs K s') = obnd (cdmed_value K (wcd_pairs K s)) (fun m => Ok (f m)).
Proof.
  intros Hn HL HP. destruct (wcd_main K HO n es Hn HL HP) as (s & ps & E & _).
  assert (P : wcd_pairs K (affs K a b s) = map (affe K a b) (wcd_pairs K s)).
  { unfold wcd_pairs. cbn [affs ps_marks affm mh mp ps_wsum]. apply (combine_affe _ _ (fun y => y / ps_wsum K s)). }
  exists s, (affs K a b s). split; [exact E|]. split; [|split; [exact P|rewrite P; apply cdmed_aff]].
  unfold wcd_run in *. change (map (fun e => (f (fst e), snd e)) es) with (map (affe K a b) es).
  rewrite (aff_run K HO a b Ha); [rewrite E; reflexivity|lia| | | |lia]; cbn; apply repeat_length.
Qed.

(** *** Several quantiles and interpolation between them *)
Lemma all_read_map {A B} (g : A -> B) (l : list (option A)) :
  all_read (map (option_map g) l) = obnd (all_read l) (fun r => Ok (map g r)).
Proof. induction l as [|[x|] l IH]; cbn [map option_map all_read]; try reflexivity. rewrite IH. destruct (all_read l); reflexivity. Qed.
Lemma ext_result_aff probs s : ext_result K probs (affs K a b s) = obnd (ext_result K probs s) (fun r => Ok (map f r)).
Proof.
  unfold ext_result. rewrite <- all_read_map, map_map. f_equal. apply map_ext. intros i. cbn [affs ps_marks affm mh]. apply nth_error_map.
Qed.
Lemma before_at_aff hs d k : before_at K (map f hs) d k = option_map f (before_at K hs d k).
Proof. unfold before_at. destruct (Nat.leb k d); [apply nth_error_map|reflexivity]. Qed.
Lemma three_aff hs d : three K (map f hs) d = option_map (fun t => let '(x, y, z) := t in (f x, f y, f z)) (three K hs d).
Proof.
  unfold three. destruct d as [d|]; [|reflexivity]. rewrite !nth_error_map.
  destruct (nth_error hs d), (nth_error hs (d + 1)), (nth_error hs (d + 2)); reflexivity.
Qed.
Lemma linear_aff p0 p1 h0 h1 p : linear_at K p0 p1 (f h0) (f h1) p = f (linear_at K p0 p1 h0 h1 p).
Proof. unfold linear_at, aff. rewrite !(div_def K HO). ring. Qed.
Lemma quadratic_aff p0 p1 p2 h0 h1 h2 p : quadratic_at K p0 p1 p2 (f h0) (f h1) (f h2) p = f (quadratic_at K p0 p1 p2 h0 h1 h2 p).
Proof. unfold quadratic_at, aff. cbv zeta. rewrite !(div_def K HO). ring. Qed.
Lemma eps_aff ip probs hs p : eps_quantile K ip probs (map f hs) p = obnd (eps_quantile K ip probs hs p) (fun v => Ok (f v)).
Proof.
  unfold eps_quantile. destruct (nth_error probs 0) as [q0|]; [|reflexivity]. destruct (nth_error probs (length probs - 1)) as [q1|]; [|reflexivity].
  destruct (ltb K p q0 || ltb K q1 p); [reflexivity|]. destruct (nth_error probs (lower_bound K probs p)) as [q|]; [|reflexivity].
  rewrite !nth_error_map. destruct (keqb K q p); [destruct (nth_error hs (lower_bound K probs p)); reflexivity|].
  destruct ip.
  - rewrite before_at_aff. destruct (before_at K probs _ 1); [|reflexivity]. destruct (before_at K hs _ 1); [|reflexivity].
    cbn [option_map]. destruct (nth_error hs _); [|reflexivity]. cbn [option_map obnd]. rewrite linear_aff. reflexivity.
  - destruct (before_at K probs _ 1); [|reflexivity]. rewrite three_aff.
    destruct (three K probs _) as [[[p0 p1] p2]|]; [|reflexivity]. destruct (three K hs _) as [[[h0 h1] h2]|]; [|reflexivity].
    cbn [option_map obnd]. rewrite quadratic_aff. reflexivity.
Qed.
Lemma ext_affine probs xs : (2 * length probs + 3 <= length xs)%nat ->
  exists s s' rs, ext_run K probs xs = Ok s /\ ext_run K probs (map f xs) = Ok s' /\
    ext_result K probs s = Ok rs /\ ext_result K probs s' = Ok (map f rs) /\
    forall ip p, eps_quantile K ip probs (map f rs) p = obnd (eps_quantile K ip probs rs p) (fun v => Ok (f v)).
Proof.
  intros HL. destruct (ext_main K HO probs xs HL) as (s & rs & lo & hi & E & Er & _).
  exists s, (affs K a b s), rs. split; [exact E|]. split; [|split; [exact Er|split; [rewrite ext_result_aff, Er; reflexivity|intros; apply eps_aff]]].
  unfold ext_run in *. rewrite units_aff, (aff_run K HO a b Ha); [rewrite E; reflexivity|unfold ext_markers; lia| | | |].
  - cbn. apply repeat_length.
  - cbn. rewrite map_length, seq_length. reflexivity.
  - cbn. rewrite map_length. apply ext_incs_length.
  - unfold units. rewrite map_length. unfold ext_markers. lia.
Qed.
Lemma wext_affine probs es : probs <> [] -> (2 * length probs + 3 <= length es)%nat -> Forall (fun e => ltb K 0 (snd e) = true) es ->
  exists s s' rs, wext_run K probs es = Ok s /\ wext_run K probs (map (fun e => (f (fst e), snd e)) es) = Ok s' /\
    ext_result K probs s = Ok rs /\ ext_result K probs s' = Ok (map f rs).
Proof.
  intros Hne HL HP. destruct (wext_main K HO probs es Hne HL HP) as (s & rs & lo & hi & E & Er & _).
  exists s, (affs K a b s), rs. split; [exact E|]. split; [|split; [exact Er|rewrite ext_result_aff, Er; reflexivity]].
  unfold wext_run in *. change (map (fun e => (f (fst e), snd e)) es) with (map (affe K a b) es).
  rewrite (aff_run K HO a b Ha); [rewrite E; reflexivity|unfold ext_markers; lia| | | |unfold ext_markers; lia]; cbn; apply repeat_length.
Qed.

(** *** Density *)
Lemma IsMin_aff l m : IsMin K l m -> IsMin K (map f l) (f m).
Proof.
  intros [A B]. split; [apply in_map; exact A|]. intros x Hx. apply in_map_iff in Hx. destruct Hx as (y & <- & Hy).
  rewrite (aff_ltb K HO a b Ha). apply B. exact Hy.
Qed.
Lemma IsMax_aff l m : IsMax K l m -> IsMax K (map f l) (f m).
Proof.
  intros [A B]. split; [apply in_map; exact A|]. intros x Hx. apply in_map_iff in Hx. destruct Hx as (y & <- & Hy).
  rewrite (aff_ltb K HO a b Ha). apply B. exact Hy.
Qed.
Lemma min_unique l m m' : IsMin K l m -> IsMin K l m' -> m = m'.
Proof. intros [A B] [C D]. apply (ord_total K HO); [apply D|apply B]; assumption. Qed.
Lemma max_unique l m m' : IsMax K l m -> IsMax K l m' -> m = m'.
Proof. intros [A B] [C D]. apply (ord_total K HO); [apply B|apply D]; assumption. Qed.
Lemma position_aff m M n i : BinPosition K (f m) (f M) n i = f (BinPosition K m M n i).
Proof. unfold BinPosition, aff. rewrite !(div_def K HO). ring. Qed.
Lemma inbin_aff m M n i x : InBin K (f m) (f M) n i (f x) = InBin K m M n i x.
Proof. unfold InBin, leb. rewrite !position_aff, !(aff_ltb K HO a b Ha). reflexivity. Qed.
Lemma filter_aff m M n i xs : length (filter (InBin K (f m) (f M) n i) (map f xs)) = length (filter (InBin K m M n i) xs).
Proof. induction xs as [|x xs IH]; cbn [map filter]; [reflexivity|]. rewrite inbin_aff. destruct (InBin K m M n i x); cbn [length]; rewrite IH; reflexivity. Qed.
Definition aff_op (o : dens_op T) : dens_op T := match o with DPush x => DPush (f x) | DExtract => DExtract end.
Lemma pushes_aff ops : dens_pushes (map aff_op ops) = map f (dens_pushes ops).
Proof. unfold dens_pushes. induction ops as [|[e|] ops IH]; cbn; [reflexivity|f_equal; exact IH|exact IH]. Qed.
Lemma density_affine lo hi lo' hi' c n s0 ops : let xs := dens_pushes ops in
  (1 <= c)%nat -> (1 <= n)%nat -> (c <= length xs)%nat ->
  Forall (fun x => ltb K x lo = false /\ ltb K hi x = false) xs ->
  Forall (fun x => ltb K x lo' = false /\ ltb K hi' x = false) (map f xs) ->
  exists s s', density_run K lo hi c n s0 ops = Ok s /\ density_run K lo' hi' c n s0 (map aff_op ops) = Ok s' /\
    density_result K s' = map (fun e => (f (fst e), snd e)) (density_result K s).
Proof.
  intros xs Hc Hn HL HR HR'.
  destruct (density_top K HO lo hi c n s0 ops Hc Hn HL HR) as (s & m & M & E & H1 & H2 & H3).
  destruct (density_top K HO lo' hi' c n s0 (map aff_op ops)) as (s' & m' & M' & E' & H1' & H2' & H3'); rewrite ?pushes_aff; fold xs; auto.
  { rewrite map_length. exact HL. }
  exists s, s'. split; [exact E|]. split; [exact E'|]. rewrite H3, H3'. rewrite pushes_aff in *. fold xs in H1, H2, H1', H2' |- *.
  rewrite (firstn_map f c xs) in H1', H2'.
  rewrite (min_unique _ _ _ H1' (IsMin_aff _ _ H1)), (max_unique _ _ _ H2' (IsMax_aff _ _ H2)).
  rewrite map_map. apply map_ext. intros i. cbn [fst snd]. rewrite position_aff, filter_aff, map_length. reflexivity.
Qed.
End Inst.
