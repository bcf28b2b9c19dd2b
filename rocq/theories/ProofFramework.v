(** Proofs about feature resolution: C38 and C39. *)

From Coq Require Import List ZArith Bool Permutation Lia Arith.
From Verif Require Import ModelFramework SpecFramework.
Import ListNotations.

Section Resolution.
Variable L : Lib.
Hypothesis HL : LibLaws L.

Lemma eqb_refl : forall t, tag_eqb L t t = true.
Proof. intros t; now apply (ll_eqb L HL). Qed.

Lemma mem_In : forall t l, mem L t l = true <-> In t l.
Proof.
  intros t l; unfold mem; rewrite existsb_exists; split.
  - intros [x [Hx E]]; apply (ll_eqb L HL) in E; now subst.
  - intros H; exists t; split; [assumption | apply eqb_refl].
Qed.

Lemma mem_nIn : forall t l, mem L t l = false <-> ~ In t l.
Proof.
  intros t l; rewrite <- mem_In; destruct (mem L t l); split; congruence.
Qed.

Lemma as_listed_feature : forall W t, ffeature L (as_listed L W t) = ffeature L t.
Proof.
  intros [] [t b]; unfold ffeature, as_listed; cbn; [apply (ll_weighted L HL) | reflexivity].
Qed.

Lemma fdeps_depth : forall t d, In d (fdeps L t) ->
  (depth L (ffeature L d) < depth L (ffeature L t))%nat.
Proof.
  intros [t b] d; unfold fdeps, ffeature; cbn; rewrite in_map_iff.
  intros [x [E Hx]]; subst; cbn; now apply (ll_depth L HL).
Qed.

(** ** The map *)

(** Keys are the features of the entries, and occur once. *)
Definition good (m : fmap L) : Prop :=
  NoDup (map fst m) /\ (forall e, In e m -> fst e = ffeature L (snd e)).

Definition has (m : fmap L) (f : tag L) : Prop := In f (map fst m).

Definition tags (m : fmap L) : list (ftag L) := map snd m.

Lemma good_nil : good [].
Proof. split; [constructor | intros e []]. Qed.

Lemma insert_good : forall m t, good m -> good (insert_feature L m t).
Proof.
  intros m t [H1 H2]; unfold insert_feature, has_key.
  destruct (mem L (ffeature L t) (map fst m)) eqn:E; [now split |].
  apply mem_nIn in E; split.
  - rewrite map_app; cbn.
    apply (Permutation_NoDup (l := ffeature L t :: map fst m)).
    + apply Permutation_cons_append.
    + now constructor.
  - intros e He; apply in_app_or in He; destruct He as [He | [He | []]].
    + now apply H2.
    + now subst.
Qed.

Lemma insert_has : forall m t, has (insert_feature L m t) (ffeature L t).
Proof.
  intros m t; unfold has, insert_feature, has_key.
  destruct (mem L (ffeature L t) (map fst m)) eqn:E.
  - now apply mem_In.
  - rewrite map_app; apply in_or_app; right; now left.
Qed.

Lemma insert_incl : forall m t e, In e m -> In e (insert_feature L m t).
Proof.
  intros m t e H; unfold insert_feature.
  destruct (has_key L _ m); [assumption | apply in_or_app; now left].
Qed.

Lemma insert_new : forall m t e, In e (insert_feature L m t) ->
  In e m \/ snd e = t.
Proof.
  intros m t e; unfold insert_feature.
  destruct (has_key L _ m); [now left |].
  intros H; apply in_app_or in H; destruct H as [H | [H | []]]; [now left |].
  right; now subst.
Qed.

Lemma has_incl : forall m m' f, (forall e, In e m -> In e m') -> has m f -> has m' f.
Proof.
  intros m m' f H Hf; unfold has in *; rewrite in_map_iff in *.
  destruct Hf as [e [E He]]; exists e; split; [assumption | now apply H].
Qed.

(** insert_dependencies: keeps [good], only adds. *)
Lemma deps_good_incl : forall n W t m, good m ->
  good (insert_dependencies L n W m t) /\
  (forall e, In e m -> In e (insert_dependencies L n W m t)).
Proof.
  induction n as [| n IH]; intros W t m Hm; cbn; [now split |].
  generalize (map (as_listed L W) (fdeps L t)) as ds; intros ds.
  revert m Hm; induction ds as [| d ds IHd]; intros m Hm; cbn; [now split |].
  destruct (IH W d (insert_feature L m d) (insert_good m d Hm)) as [H1 H2].
  destruct (IHd _ H1) as [H3 H4]; split; [assumption |].
  intros e He; apply H4, H2, insert_incl, He.
Qed.

(** Tags reached from [t] by declared dependencies. *)
Inductive Below (W : bool) : ftag L -> ftag L -> Prop :=
| below_dep : forall t d, In d (fdeps L t) -> Below W t (as_listed L W d)
| below_more : forall t d u, In d (fdeps L t) -> Below W (as_listed L W d) u ->
    Below W t u.

Lemma deps_has : forall n W t m, (depth L (ffeature L t) < n)%nat -> good m ->
  forall u, Below W t u -> has (insert_dependencies L n W m t) (ffeature L u).
Proof.
  induction n as [| n IH]; intros W t m Hn Hm u Hu; [lia |].
  cbn [insert_dependencies].
  assert (Hd : exists d, In d (map (as_listed L W) (fdeps L t)) /\
               (u = d \/ Below W d u)).
  { destruct Hu as [t d Hd | t d u Hd Hu].
    - exists (as_listed L W d); split; [now apply in_map | now left].
    - exists (as_listed L W d); split; [now apply in_map | now right]. }
  assert (Hall : forall d, In d (map (as_listed L W) (fdeps L t)) ->
                 (depth L (ffeature L d) < n)%nat).
  { intros d Hin; rewrite in_map_iff in Hin; destruct Hin as [x [E Hx]]; subst.
    rewrite as_listed_feature; apply fdeps_depth in Hx; lia. }
  clear Hu; revert Hd Hall.
  generalize (map (as_listed L W) (fdeps L t)) as ds; intros ds.
  clear Hn; revert m Hm; induction ds as [| c ds IHd]; intros m Hm [d [Hd Hu]] Hall.
  - destruct Hd.
  - cbn [fold_left].
    pose proof (deps_good_incl n W c (insert_feature L m c) (insert_good m c Hm)) as [G I].
    destruct Hd as [E | Hd].
    + subst d.
      assert (H : has (insert_dependencies L n W (insert_feature L m c) c) (ffeature L u)).
      { destruct Hu as [-> | Hu].
        - apply (has_incl (insert_feature L m c)); [exact I | apply insert_has].
        - apply IH; [apply Hall; now left | now apply insert_good | assumption]. }
      apply (has_incl (insert_dependencies L n W (insert_feature L m c) c)).
      2: exact H.
      clear - HL G.
      revert G; generalize (insert_dependencies L n W (insert_feature L m c) c) as m'.
      induction ds as [| d ds IHd]; intros m' G e He; cbn; [assumption |].
      pose proof (deps_good_incl n W d (insert_feature L m' d) (insert_good m' d G)) as [G' I'].
      apply (IHd _ G'), I', insert_incl, He.
    + apply IHd; [assumption | exists d; now split | intros; apply Hall; now right].
Qed.

Lemma deps_new : forall n W t m e, In e (insert_dependencies L n W m t) ->
  In e m \/ Below W t (snd e).
Proof.
  induction n as [| n IH]; intros W t m e; cbn; [now left |].
  assert (H : forall ds, (forall d, In d ds -> In d (map (as_listed L W) (fdeps L t))) ->
    forall m, In e (fold_left (fun m' d => insert_dependencies L n W (insert_feature L m' d) d) ds m) ->
    In e m \/ Below W t (snd e)).
  { induction ds as [| d ds IHd]; intros Hds m' He; cbn in He; [now left |].
    apply IHd in He; [| intros; apply Hds; now right].
    destruct He as [He | He]; [| now right].
    apply IH in He.
    assert (Hd := Hds d (or_introl eq_refl)).
    rewrite in_map_iff in Hd; destruct Hd as [x [E Hx]].
    destruct He as [He | He].
    - apply insert_new in He; destruct He as [He | He]; [now left |].
      right; rewrite He, <- E; now constructor.
    - right; apply (below_more W t x); [assumption | now rewrite E]. }
  now apply H.
Qed.

(** The requested part. *)
Lemma requested_flat : forall W fs,
  requested_map L W fs = fold_left (fun m t => insert_feature L m (as_listed L W t)) (listed L fs) [].
Proof.
  intros W fs; unfold requested_map.
  generalize (@nil (tag L * ftag L)) as m.
  induction fs as [| r fs IH]; intros m; cbn; [reflexivity |].
  rewrite fold_left_app, IH; destruct r; reflexivity.
Qed.

Lemma fold_insert : forall W ts m, good m ->
  let m' := fold_left (fun m t => insert_feature L m (as_listed L W t)) ts m in
  good m' /\ (forall e, In e m -> In e m') /\
  (forall t, In t ts -> has m' (ffeature L t)) /\
  (forall e, In e m' -> In e m \/ exists t, In t ts /\ snd e = as_listed L W t).
Proof.
  intros W; induction ts as [| t ts IH]; intros m Hm; cbn.
  - split; [assumption |]; split; [auto |]; split; [intros t [] | auto].
  - destruct (IH _ (insert_good m (as_listed L W t) Hm)) as [H1 [H2 [H3 H4]]].
    split; [assumption |]; split; [intros; now apply H2, insert_incl |]; split.
    + intros u [<- | Hu]; [| now apply H3].
      apply (has_incl (insert_feature L m (as_listed L W t))); [exact H2 |].
      rewrite <- (as_listed_feature W); apply insert_has.
    + intros e He; destruct (H4 e He) as [Hi | [u [Hu E]]].
      * apply insert_new in Hi; destruct Hi as [Hi | Hi]; [now left |].
        right; exists t; split; [now left | assumption].
      * right; exists u; split; [now right | assumption].
Qed.

Lemma requested_good : forall W fs, good (requested_map L W fs).
Proof.
  intros; rewrite requested_flat; now apply fold_insert, good_nil.
Qed.

Lemma requested_has : forall W fs t, In t (listed L fs) ->
  has (requested_map L W fs) (ffeature L t).
Proof.
  intros W fs t; rewrite requested_flat; apply fold_insert, good_nil.
Qed.

Lemma requested_only : forall W fs e, In e (requested_map L W fs) ->
  exists t, In t (listed L fs) /\ snd e = as_listed L W t.
Proof.
  intros W fs e; rewrite requested_flat; intros He.
  destruct (fold_insert W (listed L fs) [] good_nil) as [_ [_ [_ H]]].
  destruct (H e He) as [[] | H']; exact H'.
Qed.

Lemma requested_first : forall W fs l1 t l2, listed L fs = l1 ++ t :: l2 ->
  (forall u, In u l1 -> ffeature L u <> ffeature L t) ->
  In (ffeature L t, as_listed L W t) (requested_map L W fs).
Proof.
  intros W fs l1 t l2 E H; rewrite requested_flat, E, fold_left_app; cbn.
  set (m := fold_left (fun m t => insert_feature L m (as_listed L W t)) l1 []).
  destruct (fold_insert W l1 [] good_nil) as [G [_ [_ O]]]; fold m in G, O.
  assert (N : ~ In (ffeature L t) (map fst m)).
  { intros Hin; rewrite in_map_iff in Hin; destruct Hin as [e [Ee He]].
    destruct (O e He) as [[] | [u [Hu Eu]]].
    apply (H u Hu); rewrite <- Ee.
    destruct G as [_ G]; rewrite (G e He), Eu; now rewrite as_listed_feature. }
  destruct (fold_insert W l2 (insert_feature L m (as_listed L W t)) (insert_good m _ G))
    as [_ [I _]].
  apply I; unfold insert_feature, has_key.
  rewrite as_listed_feature; apply mem_nIn in N; rewrite N.
  apply in_or_app; right; now left.
Qed.

(** The whole map. *)
Lemma fold_deps : forall W m1 m, good m ->
  let m' := add_dependencies L W m1 m in
  good m' /\ (forall e, In e m -> In e m') /\
  (forall e u, In e m1 -> Below W (snd e) u -> has m' (ffeature L u)) /\
  (forall e, In e m' -> In e m \/ exists e1, In e1 m1 /\ Below W (snd e1) (snd e)).
Proof.
  intros W; unfold add_dependencies; induction m1 as [| e1 m1 IH]; intros m Hm; cbn -[insert_dependencies].
  - split; [assumption |]; split; [auto |]; split; [intros e u [] | auto].
  - set (n := S (depth L (ffeature L (snd e1)))).
    pose proof (deps_good_incl n W (snd e1) m Hm) as [G I].
    destruct (IH _ G) as [H1 [H2 [H3 H4]]].
    split; [assumption |]; split; [intros; now apply H2, I |]; split.
    + intros e u [<- | He] Hu; [| now apply (H3 e)].
      apply (has_incl (insert_dependencies L n W m (snd e1))); [exact H2 |].
      apply deps_has; [unfold n; lia | assumption | assumption].
    + intros e He; destruct (H4 e He) as [Hi | [e2 [Hi Hb]]].
      * apply deps_new in Hi; destruct Hi as [Hi | Hi]; [now left |].
        right; exists e1; split; [now left | assumption].
      * right; exists e2; split; [now right | assumption].
Qed.

(** ** Quicksort permutes *)
Lemma partition_perm : forall (f : ftag L -> bool) l,
  Permutation (fst (partition f l) ++ snd (partition f l)) l.
Proof.
  intros f; induction l as [| a l IH]; cbn; [constructor |].
  destruct (partition f l) as [x y]; cbn in *; destruct (f a); cbn.
  - now constructor.
  - transitivity (a :: x ++ y); [symmetry; apply Permutation_middle | now constructor].
Qed.

Lemma partition_in : forall (f : ftag L -> bool) l x,
  (In x (fst (partition f l)) <-> In x l /\ f x = true) /\
  (In x (snd (partition f l)) <-> In x l /\ f x = false).
Proof.
  intros f l x; induction l as [| a l [IH1 IH2]]; cbn; [tauto |].
  destruct (partition f l) as [u v]; cbn in *.
  destruct (f a) eqn:E; cbn; rewrite IH1, IH2; split; intuition (subst; congruence || tauto).
Qed.

Lemma partition_len : forall (f : ftag L -> bool) l,
  (length (fst (partition f l)) <= length l /\ length (snd (partition f l)) <= length l)%nat.
Proof.
  intros f l; pose proof (Permutation_length (partition_perm f l)) as H.
  rewrite app_length in H; lia.
Qed.

Lemma sort_perm : forall n l, (length l <= n)%nat -> Permutation (quick_sort L n l) l.
Proof.
  induction n as [| n IH]; intros l Hl.
  - destruct l; [constructor | cbn in Hl; lia].
  - destruct l as [| p r]; [constructor |]; cbn in Hl |- *.
    pose proof (partition_len (fun x => dependent L p x) r) as [H1 H2].
    rewrite (IH (fst (partition (fun x => dependent L p x) r))) by lia.
    rewrite (IH (snd (partition (fun x => dependent L p x) r))) by lia.
    rewrite <- Permutation_middle; constructor; apply partition_perm.
Qed.

(** ** C38 *)
Section Tuple.
Variable enum : fmap L -> fmap L.
Hypothesis Henum : Enumeration L enum.
Variable W : bool.
Variable fs : list (request L).

Let m := requested_map L W fs.
Let m' := add_dependencies L W (enum m) m.
Let ts := make_tuple L enum W fs.

Lemma tuple_perm : Permutation ts (tags m').
Proof.
  unfold ts, make_tuple, tags; fold m; fold m'.
  rewrite sort_perm by lia; apply Permutation_map, Henum.
Qed.

Lemma tuple_tags : forall t, In t ts <-> In t (tags m').
Proof.
  intros t; split; apply Permutation_in; [apply tuple_perm | symmetry; apply tuple_perm].
Qed.

Lemma tuple_map : good m' /\ (forall e, In e m -> In e m') /\
  (forall e u, In e m -> Below W (snd e) u -> has m' (ffeature L u)) /\
  (forall e, In e m' -> In e m \/ exists e1, In e1 m /\ Below W (snd e1) (snd e)).
Proof.
  destruct (fold_deps W (enum m) m (requested_good W fs)) as [G [I [H N]]].
  split; [exact G |]; split; [exact I |]; split.
  - intros e u He; apply H; apply (Permutation_in _ (Permutation_sym (Henum m))), He.
  - intros e He; destruct (N e He) as [Hi | [e1 [Hi Hb]]]; [now left | right].
    exists e1; split; [apply (Permutation_in _ (Henum m)), Hi | assumption].
Qed.

Lemma good_features : forall m0, good m0 -> map (ffeature L) (tags m0) = map fst m0.
Proof.
  intros m0 [_ H]; unfold tags; rewrite map_map; apply map_ext_in.
  intros e He; symmetry; now apply H.
Qed.

Lemma tuple_once : NoDup (map (ffeature L) ts).
Proof.
  destruct tuple_map as [G _].
  apply (Permutation_NoDup (l := map (ffeature L) (tags m'))).
  - symmetry; apply Permutation_map, tuple_perm.
  - rewrite (good_features m' G); apply G.
Qed.

Lemma tuple_same : forall a b, In a ts -> In b ts -> ffeature L a = ffeature L b -> a = b.
Proof.
  pose proof tuple_once as N; revert N; generalize ts as l.
  induction l as [| c l IH]; intros N a b Ha Hb E; [destruct Ha |].
  cbn in N; inversion N as [| x y N1 N2]; subst.
  destruct Ha as [<- | Ha], Hb as [<- | Hb]; try reflexivity.
  - exfalso; apply N1; rewrite E; now apply in_map.
  - exfalso; apply N1; rewrite <- E; now apply in_map.
  - now apply IH.
Qed.

Lemma below_trans : forall t u d, Below W t u -> In d (fdeps L u) ->
  Below W t (as_listed L W d).
Proof.
  intros t u d H Hd; induction H as [t c Hc | t c u Hc H IH].
  - apply (below_more W t c); [assumption | now constructor].
  - apply (below_more W t c); [assumption | now apply IH].
Qed.

Lemma called_below : forall t, Called L W fs t ->
  exists t0, In t0 (listed L fs) /\ (t = as_listed L W t0 \/ Below W (as_listed L W t0) t).
Proof.
  intros t H; induction H as [t Ht | t d H IH Hd].
  - exists t; split; [assumption | now left].
  - destruct IH as [t0 [H0 [-> | Hb]]]; exists t0; (split; [assumption |]); right.
    + now constructor.
    + now apply (below_trans _ t).
Qed.

Lemma below_called : forall t u, Called L W fs t -> Below W t u -> Called L W fs u.
Proof.
  intros t u H Hb; induction Hb as [t d Hd | t d u Hd Hb IH].
  - now apply (called_dep _ W fs t).
  - apply IH; now apply (called_dep _ W fs t).
Qed.

Lemma tuple_only : forall t, In t ts -> Called L W fs t.
Proof.
  intros t Ht; apply tuple_tags in Ht; unfold tags in Ht; rewrite in_map_iff in Ht.
  destruct Ht as [e [E He]]; subst t.
  destruct tuple_map as [_ [_ [_ N]]].
  destruct (N e He) as [Hi | [e1 [Hi Hb]]].
  - apply requested_only in Hi; destruct Hi as [t [Ht ->]]; now constructor.
  - apply requested_only in Hi; destruct Hi as [t [Ht E]].
    apply (below_called (snd e1)); [rewrite E; now constructor | assumption].
Qed.

Lemma has_tag : forall f, has m' f -> exists u, In u ts /\ ffeature L u = f.
Proof.
  intros f H; destruct tuple_map as [G _]; unfold has in H.
  rewrite <- (good_features m' G), in_map_iff in H; destruct H as [u [E Hu]].
  exists u; split; [now apply tuple_tags | assumption].
Qed.

(** A listed tag may have lost its place to an earlier one of the same feature:
    then its own dependencies are not inserted.  What is present is what the
    winners declare. *)
Lemma tuple_closed : forall t d, In t ts -> In d (deps L (fst t)) ->
  exists u, In u ts /\ ffeature L u = feature L d.
Proof.
  intros t d Ht Hd; apply has_tag.
  apply tuple_tags in Ht; unfold tags in Ht; rewrite in_map_iff in Ht.
  destruct Ht as [e [E He]]; subst t.
  assert (Hd' : In (d, snd (snd e)) (fdeps L (snd e))).
  { unfold fdeps; rewrite in_map_iff; exists d; now split. }
  destruct tuple_map as [_ [_ [H N]]].
  replace (feature L d) with (ffeature L (as_listed L W (d, snd (snd e))))
    by (rewrite as_listed_feature; reflexivity).
  destruct (N e He) as [Hi | [e1 [Hi Hb]]].
  - apply (H e); [assumption | now constructor].
  - apply (H e1); [assumption | now apply (below_trans _ (snd e))].
Qed.

Lemma tuple_listed : forall t, In t (listed L fs) ->
  exists u, In u ts /\ ffeature L u = ffeature L t.
Proof.
  intros t Ht; apply has_tag.
  destruct tuple_map as [_ [I _]].
  apply (has_incl m); [exact I | now apply requested_has].
Qed.

Lemma tuple_first : forall l1 t l2, listed L fs = l1 ++ t :: l2 ->
  (forall u, In u l1 -> ffeature L u <> ffeature L t) -> In (as_listed L W t) ts.
Proof.
  intros l1 t l2 E H; apply tuple_tags; unfold tags; rewrite in_map_iff.
  exists (ffeature L t, as_listed L W t); split; [reflexivity |].
  destruct tuple_map as [_ [I _]]; apply I; now apply (requested_first W fs l1 t l2).
Qed.

(** Every tag the request calls for is present unless it is called for only below
    a listed tag that lost its place. *)
Lemma tuple_called : NoDup (map (ffeature L) (listed L fs)) ->
  forall t, Called L W fs t -> exists u, In u ts /\ ffeature L u = ffeature L t.
Proof.
  intros N t Ht; apply called_below in Ht; destruct Ht as [t0 [H0 H]].
  assert (Hin : In (ffeature L t0, as_listed L W t0) m).
  { destruct (in_split _ _ H0) as [l1 [l2 E]].
    apply (requested_first W fs l1 t0 l2 E).
    intros u Hu; rewrite E, map_app in N; cbn in N.
    apply NoDup_remove_2 in N; intros Eu; apply N; apply in_or_app; left.
    rewrite <- Eu; now apply in_map. }
  destruct H as [-> | Hb].
  - destruct (tuple_listed t0 H0) as [u [Hu Eu]]; exists u; split; [assumption |].
    now rewrite as_listed_feature.
  - apply has_tag; destruct tuple_map as [_ [_ [H _]]].
    now apply (H (ffeature L t0, as_listed L W t0)).
Qed.

End Tuple.

(** ** C39: the order *)

(** collect and bases only go down. *)
Lemma collect_depth : forall n ts k, (forall d, In d ts -> depth L (feature L d) < k)%nat ->
  forall f, In f (collect L n ts) -> (depth L f < k)%nat /\ feature L f = f.
Proof.
  induction n as [| n IH]; intros ts k H f Hf; cbn in Hf; [destruct Hf |].
  rewrite in_flat_map in Hf; destruct Hf as [d [Hd [<- | Hf]]].
  - split; [now apply H | apply (ll_feature L HL)].
  - apply (IH (deps L d) k); [| assumption].
    intros c Hc; apply (ll_depth L HL) in Hc; specialize (H d Hd); lia.
Qed.

Lemma collect_direct : forall n ts d, In d ts -> In (feature L d) (collect L (S n) ts).
Proof.
  intros n ts d H; cbn; rewrite in_flat_map; exists d; split; [assumption | now left].
Qed.

Lemma bases_depth : forall n t f, In f (bases L n t) ->
  (depth L f < depth L (feature L t))%nat.
Proof.
  induction n as [| n IH]; intros t f Hf; cbn -[collect] in Hf; [destruct Hf |].
  rewrite in_flat_map in Hf; destruct Hf as [g [Hg H]].
  destruct (collect_depth _ (deps L t) (depth L (feature L t))
              (fun d Hd => ll_depth L HL t d Hd) g Hg) as [Hd Eg].
  destruct H as [<- | Hf]; [assumption |].
  apply IH in Hf; rewrite Eg in Hf; lia.
Qed.

Lemma dependent_depth : forall a b, dependent L a b = true ->
  (depth L (ffeature L b) < depth L (ffeature L a))%nat.
Proof.
  intros a b H; unfold dependent in H; apply mem_In in H; now apply bases_depth in H.
Qed.

Lemma dependent_irrefl : forall a, dependent L a a = false.
Proof.
  intros a; destruct (dependent L a a) eqn:E; [| reflexivity].
  apply dependent_depth in E; lia.
Qed.

(** What an accumulator reads it depends on. *)
Lemma reads_dependent : forall a b, Reads L a b -> dependent L a b = true.
Proof.
  intros a b H; unfold dependent; apply mem_In.
  unfold Reads in H; rewrite in_map_iff in H; destruct H as [d [E Hd]].
  rewrite <- E; cbn -[collect]; rewrite in_flat_map.
  exists (feature L d); split; [now apply collect_direct | now left].
Qed.

Definition transitive_on (ts : list (ftag L)) : Prop :=
  forall a b c, In a ts -> In b ts -> In c ts ->
    dependent L a b = true -> dependent L b c = true -> dependent L a c = true.

Lemma before_app_l : forall A (x y : A) l r, Before x y l -> Before x y (l ++ r).
Proof.
  intros A x y l r (l1 & l2 & l3 & ->); exists l1, l2, (l3 ++ r).
  now rewrite <- !app_assoc, <- !app_comm_cons, <- app_assoc, <- app_comm_cons.
Qed.

Lemma before_app_r : forall A (x y : A) l r, Before x y r -> Before x y (l ++ r).
Proof.
  intros A x y l r (l1 & l2 & l3 & ->); exists (l ++ l1), l2, l3; now rewrite <- app_assoc.
Qed.

Lemma before_across : forall A (x y : A) l r, In x l -> In y r -> Before x y (l ++ r).
Proof.
  intros A x y l r Hx Hy.
  destruct (in_split _ _ Hx) as [a [b ->]], (in_split _ _ Hy) as [c [d ->]].
  exists a, (b ++ c), d; now rewrite <- app_assoc, <- app_comm_cons, <- app_assoc.
Qed.

(** The sort respects a relation [R] on the list as soon as whatever depends on the
    reader (or is the reader) depends on what is read. *)
Lemma sort_respects : forall n l (R : ftag L -> ftag L -> Prop), (length l <= n)%nat ->
  (forall p a b, In p l -> In a l -> In b l -> R a b -> p = a \/ dependent L p a = true ->
     dependent L p b = true) ->
  forall a b, In a l -> In b l -> R a b -> Before b a (quick_sort L n l).
Proof.
  induction n as [| n IH]; intros l R Hl HT a b Ha Hb D.
  { destruct l; [destruct Ha | cbn in Hl; lia]. }
  destruct l as [| p r]; [destruct Ha |]; cbn in Hl.
  cbn [quick_sort].
  pose proof (partition_len (fun x => dependent L p x) r) as [K1 K2].
  pose proof (partition_in (fun x => dependent L p x) r) as P.
  set (lo := fst (partition (fun x => dependent L p x) r)) in *.
  set (hi := snd (partition (fun x => dependent L p x) r)) in *.
  assert (Slo : forall x, In x lo <-> In x (quick_sort L n lo)).
  { intros x; split; apply Permutation_in; [symmetry |]; apply sort_perm; lia. }
  assert (Shi : forall x, In x hi <-> In x (quick_sort L n hi)).
  { intros x; split; apply Permutation_in; [symmetry |]; apply sort_perm; lia. }
  assert (Ilo : forall x, In x lo -> In x (p :: r)) by (intros x Hx; right; now apply (proj1 (P x))).
  assert (Ihi : forall x, In x hi -> In x (p :: r)) by (intros x Hx; right; now apply (proj2 (P x))).
  assert (C : forall x, In x (p :: r) -> x = p \/ (In x lo /\ dependent L p x = true) \/
                        (In x hi /\ dependent L p x = false)).
  { intros x [<- | Hx]; [now left | right].
    destruct (dependent L p x) eqn:E; [left | right]; (split; [| reflexivity]); apply P; now split. }
  assert (Hp : In p (p :: r)) by now left.
  destruct (C a Ha) as [-> | [[La Da] | [Ra Da]]], (C b Hb) as [-> | [[Lb Db] | [Rb Db]]].
  - assert (X := HT p p p Hp Hp Hp D (or_introl eq_refl)).
    rewrite dependent_irrefl in X; discriminate X.
  - apply before_across; [now apply Slo | now left].
  - assert (X := HT p p b Hp Hp Hb D (or_introl eq_refl)); congruence.
  - assert (X := HT p a p Hp Ha Hp D (or_intror Da)).
    rewrite dependent_irrefl in X; discriminate X.
  - apply before_app_l; apply (IH lo R); [lia | | assumption | assumption | assumption].
    intros q x y Hq Hx Hy; apply HT; now apply Ilo.
  - assert (X := HT p a b Hp Ha Hb D (or_intror Da)); congruence.
  - apply before_app_r; change (p :: quick_sort L n hi) with ([p] ++ quick_sort L n hi).
    apply before_across; [now left | now apply Shi].
  - apply before_across; [now apply Slo | right; now apply Shi].
  - apply before_app_r; change (p :: quick_sort L n hi) with ([p] ++ quick_sort L n hi).
    apply before_app_r; apply (IH hi R); [lia | | assumption | assumption | assumption].
    intros q x y Hq Hx Hy; apply HT; now apply Ihi.
Qed.

Lemma tuple_respects : forall enum, Enumeration L enum -> forall W fs (R : ftag L -> ftag L -> Prop),
  let ts := make_tuple L enum W fs in
  (forall p a b, In p ts -> In a ts -> In b ts -> R a b -> p = a \/ dependent L p a = true ->
     dependent L p b = true) ->
  forall a b, In a ts -> In b ts -> R a b -> Before b a ts.
Proof.
  intros enum He W fs R ts HT a b Ha Hb HR.
  unfold ts, make_tuple in *; cbv zeta in *.
  set (v := map snd (enum (add_dependencies L W (enum (requested_map L W fs)) (requested_map L W fs)))) in *.
  assert (Hp : Permutation (quick_sort L (length v) v) v) by (apply sort_perm; lia).
  apply (sort_respects _ _ R); [lia | | | | assumption].
  - intros p x y Hp' Hx Hy; apply HT; apply (Permutation_in _ (Permutation_sym Hp)); assumption.
  - now apply (Permutation_in _ Hp).
  - now apply (Permutation_in _ Hp).
Qed.

Lemma needs_dependent : forall ts, transitive_on ts -> forall a b, Needs L ts a b ->
  b = a \/ dependent L a b = true.
Proof.
  intros ts HT a b H; induction H as [a Ha | a c b Ha Hc Hr H IH]; [now left |].
  right; apply reads_dependent in Hr; destruct IH as [-> | IH]; [assumption |].
  apply (HT a c b); try assumption.
  clear - H; induction H; assumption.
Qed.

Lemma tuple_ordered : forall enum, Enumeration L enum -> forall W fs,
  transitive_on (make_tuple L enum W fs) -> WellOrdered L (make_tuple L enum W fs).
Proof.
  intros enum He W fs HT a b Ha Hb HR.
  apply (tuple_respects enum He W fs (Reads L)); try assumption.
  intros p x y Hp Hx Hy R [-> | D].
  - now apply reads_dependent.
  - apply (HT p x y); try assumption; now apply reads_dependent.
Qed.

(** In a well-ordered, transitive set every accumulator comes after all it needs. *)
Lemma tuple_push_ordered : forall enum, Enumeration L enum -> forall W fs on_push,
  transitive_on (make_tuple L enum W fs) -> PushOrdered L on_push (make_tuple L enum W fs).
Proof.
  intros enum He W fs op HT a b Ha _ HN Hne.
  assert (Hb : In b (make_tuple L enum W fs)) by (clear - HN; induction HN; assumption).
  apply (tuple_respects enum He W fs (fun x y => Needs L (make_tuple L enum W fs) x y /\ y <> x)).
  - intros p x y Hp Hx Hy [N D] [-> | Dp];
      destruct (needs_dependent _ HT x y N) as [E | E]; try contradiction; [assumption |].
    now apply (HT p x y).
  - assumption.
  - assumption.
  - now split.
Qed.

End Resolution.
