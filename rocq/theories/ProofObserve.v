(** Extractions of a set change nothing, for any library whose accumulators satisfy local laws. *)

From Coq Require Import List ZArith Bool Lia Arith.
From Verif Require Import ModelFramework SpecFramework SpecFrozen ProofFramework ProofFrameworkRef ProofFrameworkRun.
From Verif Require Import ModelObserve.
Import ListNotations.

Inductive Subseq {X : Type} : list X -> list X -> Prop :=
| sub_nil : Subseq [] []
| sub_skip : forall x l l', Subseq l l' -> Subseq l (x :: l')
| sub_take : forall x l l', Subseq l l' -> Subseq (x :: l) (x :: l').
Lemma subseq_refl : forall X (l : list X), Subseq l l.
Proof. induction l; [constructor | now apply sub_take]. Qed.
Lemma subseq_snoc : forall X (l l' : list X) x, Subseq l l' -> Subseq (l ++ [x]) (l' ++ [x]).
Proof. intros X l l' x H; induction H; cbn; [apply sub_take; constructor | now apply sub_skip | now apply sub_take]. Qed.
Lemma subseq_late : forall X (l l' : list X) x, Subseq l l' -> Subseq l (l' ++ [x]).
Proof. intros X l l' x H; induction H; cbn; [apply sub_skip; constructor | now apply sub_skip | now apply sub_take]. Qed.
Lemma subseq_none : forall X (l : list X), Subseq [] l.
Proof. induction l; now constructor. Qed.
Lemma subseq_in : forall X (l l' : list X) x, Subseq l l' -> In x l -> In x l'.
Proof. intros X l l' x H; induction H; cbn; intros I; [assumption | right; auto | destruct I; [now left | right; auto]]. Qed.
Lemma subseq_nodup : forall X Y (f : X -> Y) (l l' : list X), Subseq l l' -> NoDup (map f l') -> NoDup (map f l).
Proof.
  intros X Y f l l' H; induction H; cbn; intros N; [assumption | |]; inversion N as [| ? ? N1 N2]; subst; auto.
  constructor; auto; intros I; apply N1; apply in_map_iff in I; destruct I as (y & <- & I).
  apply in_map; now apply (subseq_in _ l).
Qed.

Section Observation.
Variable L : Lib.
Hypothesis HL : LibLaws L.
Variables X R S1 S2 : Type.
Variable ab : R.
Variable init1 : tag L -> S1.
Variable step1 : tag L -> (tag L -> R) -> X -> S1 -> S1.
Variable result1 : tag L -> (tag L -> R) -> S1 -> R.
Variable init2 : tag L -> S2.
Variable step2 : tag L -> (tag L -> R) -> X -> S2 -> S2.
Variable result2 : tag L -> (tag L -> R) -> S2 -> R.
Local Notation B1 := (mkBehaviour L S1 X R ab init1 step1 result1).
Local Notation B2 := (mkBehaviour L S2 X R ab init2 step2 result2).
Variable consults : tag L -> list (tag L).
Variable on_push : tag L -> bool.
Hypothesis HB1 : ReadsOnly L B1 consults on_push.
Hypothesis HB2 : ReadsOnly L B2 consults on_push.
Variable asks : tag L -> S1 -> list (tag L).
Variable look : tag L -> (tag L -> R) -> S1 -> S1.

(** Which answers count as equal; which accumulators are allowed, which may be extracted, which may be
    dropped; which samples are allowed. *)
Variable Rel : R -> R -> Prop.
Hypothesis rel_refl : forall v, Rel v v.
Hypothesis rel_sym : forall v w, Rel v w -> Rel w v.
Variable ok harmless steady : tag L -> Prop.
Variable P : list X -> Prop.
Hypothesis P_sub : forall l l', Subseq l l' -> P l' -> P l.

(** [Sim t h s s']: what remains of [s] without the caches is [s'], after the samples [h];
    [Valid t r s]: what the caches hold is up to date, if the rest of the set reports [r]. *)
Variable Sim : tag L -> list X -> S1 -> S2 -> Prop.
Variable Valid : tag L -> (tag L -> R) -> S1 -> Prop.
Hypothesis law_init : forall t, Sim t [] (init1 t) (init2 t) /\ forall r, Valid t r (init1 t).
Hypothesis law_step : forall t h x s s' r r', ok t -> P (h ++ [x]) -> Sim t h s s' ->
  (forall f, Rel (r f) (r' f)) ->
  Sim t (h ++ [x]) (step1 t r x s) (step2 t r' x s') /\ forall q, Valid t q (step1 t r x s).
Hypothesis law_valid : forall t r r' s, (forall d, In d (consults t) -> Rel (r (feature L d)) (r' (feature L d))) ->
  Valid t r s -> Valid t r' s.
Hypothesis law_result : forall t h s s' r r', ok t -> P h -> Sim t h s s' -> Valid t r s ->
  (forall f, Rel (r f) (r' f)) -> Rel (result1 t r s) (result2 t r' s').
Hypothesis law_look : forall t h s s' r, ok t -> harmless t -> P h -> Sim t h s s' -> Valid t r s ->
  Sim t h (look t r s) s' /\ Valid t r (look t r s).
Hypothesis law_steady : forall t h s s' r, ok t -> steady t -> P h -> Sim t h s s' -> Valid t r s.

Local Notation acc1 := (acc L B1).
Local Notation acc2 := (acc L B2).
Local Notation who1 := (who L B1).
Local Notation who2 := (who L B2).
Local Notation read1 := (read L B1).
Local Notation read2 := (read L B2).

(** ** Reading only what is consulted *)
Definition masked (t : tag L) (r : tag L -> R) (f : tag L) : R :=
  if mem L f (map (feature L) (consults t)) then r f else ab.
Lemma masked_in : forall t r d, In d (consults t) -> masked t r (feature L d) = r (feature L d).
Proof.
  intros t r d Hd; unfold masked.
  replace (mem L (feature L d) (map (feature L) (consults t))) with true; [reflexivity | symmetry].
  unfold mem; apply existsb_exists; exists (feature L d); split; [now apply in_map | now apply (eqb_refl L HL)].
Qed.
Lemma masked_rel : forall t r r', (forall d, In d (consults t) -> Rel (r (feature L d)) (r' (feature L d))) ->
  forall f, Rel (masked t r f) (masked t r' f).
Proof.
  intros t r r' H f; unfold masked; destruct (mem L f _) eqn:E; [| apply rel_refl].
  unfold mem in E; apply existsb_exists in E; destruct E as (g & Hg & E).
  apply (ll_eqb L HL) in E; subst g; apply in_map_iff in Hg; destruct Hg as (d & <- & Hd); now apply H.
Qed.

Lemma step_rel : forall t h x s s' r r', ok t -> P (h ++ [x]) -> Sim t h s s' ->
  (forall d, In d (consults t) -> Rel (r (feature L d)) (r' (feature L d))) ->
  Sim t (h ++ [x]) (step1 t r x s) (step2 t r' x s') /\ forall q, Valid t q (step1 t r x s).
Proof.
  intros t h x s s' r r' Ht HP HS Hr.
  assert (E1 : step1 t r x s = step1 t (masked t r) x s).
  { apply (proj1 HB1); intros _ d Hd; symmetry; now apply masked_in. }
  assert (E2 : step2 t r' x s' = step2 t (masked t r') x s').
  { apply (proj1 HB2); intros _ d Hd; symmetry; now apply masked_in. }
  rewrite E1, E2; apply law_step; try assumption; now apply masked_rel.
Qed.
Lemma result_rel : forall t h s s' r r', ok t -> P h -> Sim t h s s' -> Valid t r s ->
  (forall d, In d (consults t) -> Rel (r (feature L d)) (r' (feature L d))) -> Rel (result1 t r s) (result2 t r' s').
Proof.
  intros t h s s' r r' Ht HP HS HV Hr.
  assert (E1 : result1 t r s = result1 t (masked t r) s).
  { apply (proj2 HB1); intros d Hd; symmetry; now apply masked_in. }
  assert (E2 : result2 t r' s' = result2 t (masked t r') s').
  { apply (proj2 HB2); intros d Hd; symmetry; now apply masked_in. }
  rewrite E1, E2; apply (law_result t h); try assumption; [| now apply masked_rel].
  apply (law_valid t r); [| assumption]; intros d Hd; rewrite masked_in by assumption; apply rel_refl.
Qed.

(** ** Two sets side by side *)
Definition paired (h : list X) (a : acc1) (a' : acc2) : Prop :=
  who1 a = who2 a' /\ refs L B1 a = refs L B2 a' /\ tripped L B1 a = tripped L B2 a' /\
  exists h0, Subseq h0 h /\ Sim (fst (who1 a)) h0 (state L B1 a) (state L B2 a').
Definition valid_in (s' : accset L B2) (a : acc1) : Prop := Valid (fst (who1 a)) (read2 s') (state L B1 a).

Variable ts : list (ftag L).
Hypothesis Hone : Single L ts.
Hypothesis Hsup : Supplied L consults ts.
Hypothesis Hord : PushOrdered L on_push ts.
Hypothesis Hok : forall t, In t ts -> ok (fst t).
Hypothesis Hsteady : forall t, In t ts -> snd t = true -> steady (fst t).

Record Parallel (h : list X) (s : accset L B1) (s' : accset L B2) : Prop := {
  par_who : map who1 s = ts;
  par_pairs : Forall2 (paired h) s s';
  par_valid : forall a, In a s -> valid_in s' a;
  par_samples : P h
}.

Lemma pairs_who : forall h s s', Forall2 (paired h) s s' -> map who2 s' = map who1 s.
Proof.
  intros h s s' H; induction H as [| a a' s s' H F IH]; cbn; [reflexivity |].
  destruct H as [H _]; now rewrite H, IH.
Qed.
Lemma pairs_find : forall h s s' f, Forall2 (paired h) s s' ->
  match find L B1 s f, find L B2 s' f with
  | Some a, Some a' => paired h a a'
  | None, None => True
  | _, _ => False
  end.
Proof.
  intros h s s' f H; induction H as [| a a' s s' H F IH]; cbn; [exact I |].
  unfold find in *; cbn; pose proof (proj1 H) as E; rewrite <- E.
  destruct (tag_eqb L f (ffeature L (who1 a))); assumption.
Qed.
Lemma pairs_in : forall h s s' a, Forall2 (paired h) s s' -> In a s -> exists a', In a' s' /\ paired h a a'.
Proof.
  intros h s s' a H I; induction H as [| b b' s s' H F IH]; [destruct I |].
  destruct I as [-> | I]; [exists b'; split; [now left | assumption] |].
  destruct (IH I) as (a' & I' & H'); exists a'; split; [now right | assumption].
Qed.

(** Two sets that correspond report the same. *)
Lemma pairs_read : forall h s s', P h -> map who1 s = ts -> Forall2 (paired h) s s' ->
  (forall a, In a s -> valid_in s' a) -> forall f, Rel (read1 s f) (read2 s' f).
Proof.
  intros h s s' HP Hw HF HV.
  assert (Hw' : map who2 s' = ts) by (rewrite (pairs_who h s s' HF); exact Hw).
  assert (C1 : Supplied L consults (map who1 s)) by (rewrite Hw; exact Hsup).
  assert (C2 : Supplied L consults (map who2 s')) by (rewrite Hw'; exact Hsup).
  assert (G : forall n f, (depth L f < n)%nat -> Rel (read1 s f) (read2 s' f)).
  { induction n as [| n IH]; intros f Hn; [lia |].
    pose proof (pairs_find h s s' f HF) as PF.
    destruct (find L B1 s f) as [a |] eqn:E1, (find L B2 s' f) as [a' |] eqn:E2; try contradiction.
    - rewrite (read_result L B1 HL consults on_push HB1 s f a C1 E1).
      rewrite (read_result L B2 HL consults on_push HB2 s' f a' C2 E2).
      destruct (find_in L B1 HL s f a E1) as [I1 F1].
      destruct PF as (PW & _ & _ & h0 & Hs & HS); rewrite <- PW.
      assert (Ia : In (who1 a) ts) by (rewrite <- Hw; now apply in_map).
      assert (Hr : forall d, In d (consults (fst (who1 a))) -> Rel (read1 s (feature L d)) (read2 s' (feature L d))).
      { intros d Hd; apply IH.
        pose proof (supplied_depth L HL consults ts (who1 a) d Hsup Ia Hd) as Hl; rewrite F1 in Hl; lia. }
      apply (result_rel _ h0); try assumption.
      + now apply Hok.
      + now apply (P_sub h0 h).
      + apply (law_valid _ (read2 s')); [| exact (HV a I1)]; intros d Hd; apply rel_sym; now apply Hr.
    - unfold read; cbn; rewrite E1, E2; apply rel_refl. }
  intros f; apply (G (S (depth L f))); lia.
Qed.
Lemma parallel_read : forall h s s', Parallel h s s' -> forall f, Rel (read1 s f) (read2 s' f).
Proof. intros h s s' [W F V HP]; now apply (pairs_read h). Qed.

(** A sample. *)
Lemma parallel_push : forall h s s' x, Parallel h s s' -> P (h ++ [x]) ->
  Parallel (h ++ [x]) (push L B1 s x) (push L B2 s' x).
Proof.
  intros h s s' x [Hw HF HV HP] HP'.
  assert (Hw' : map who2 s' = ts) by (rewrite (pairs_who h s s' HF); exact Hw).
  assert (N1 : Single L (map who1 s)) by (rewrite Hw; exact Hone).
  assert (N2 : Single L (map who2 s')) by (rewrite Hw'; exact Hone).
  assert (C1 : Supplied L consults (map who1 s)) by (rewrite Hw; exact Hsup).
  assert (C2 : Supplied L consults (map who2 s')) by (rewrite Hw'; exact Hsup).
  assert (O1 : PushOrdered L on_push (map who1 s)) by (rewrite Hw; exact Hord).
  assert (O2 : PushOrdered L on_push (map who2 s')) by (rewrite Hw'; exact Hord).
  pose proof (push_stepped L B1 HL consults on_push HB1 s x N1 C1 O1) as E1.
  pose proof (push_stepped L B2 HL consults on_push HB2 s' x N2 C2 O2) as E2.
  set (F1 := push L B1 s x) in *; set (F2 := push L B2 s' x) in *.
  assert (W1 : map who1 F1 = ts) by (rewrite <- Hw; apply (push_shape L B1)).
  assert (W2 : map who2 F2 = ts) by (rewrite <- Hw'; apply (push_shape L B2)).
  assert (D1 : Supplied L consults (map who1 F1)) by (rewrite W1; exact Hsup).
  assert (D2 : Supplied L consults (map who2 F2)) by (rewrite W2; exact Hsup).
  assert (Q1 : P h) by exact HP.
  (* one accumulator, provided that what it consults is the same *)
  assert (one : forall a a', In a s -> paired h a a' ->
    (forall d, In d (consults (fst (who1 a))) -> Rel (read1 F1 (feature L d)) (read2 F2 (feature L d))) ->
    paired (h ++ [x]) (stepped L B1 x F1 a) (stepped L B2 x F2 a') /\
    forall q, Valid (fst (who1 a)) q (state L B1 (stepped L B1 x F1 a))).
  { intros a a' I (PW & PR & PT & h0 & Hs & HS) Hr.
    assert (Ia : In (who1 a) ts) by (rewrite <- Hw; now apply in_map).
    assert (De : is_dropped L B1 a = is_dropped L B2 a').
    { unfold is_dropped, droppable; now rewrite PW, PR. }
    unfold stepped; rewrite <- De; destruct (is_dropped L B1 a) eqn:Dr.
    - split.
      + split; [assumption |]; split; [assumption |]; split; [assumption |].
        exists h0; split; [now apply subseq_late | assumption].
      + intros q; apply (law_steady _ h0 _ (state L B2 a')); try assumption; [now apply Hok | | now apply (P_sub h0 h)].
        apply Hsteady; [assumption |].
        unfold is_dropped, droppable in Dr; now apply andb_prop in Dr.
    - assert (Ph : P (h0 ++ [x])) by (apply (P_sub _ (h ++ [x])); [now apply subseq_snoc | assumption]).
      destruct (step_rel (fst (who1 a)) h0 x (state L B1 a) (state L B2 a') (read1 F1) (read2 F2)
                  (Hok _ Ia) Ph HS Hr) as [S' V'].
      split; [| exact V'].
      split; [exact PW |]; split; [exact PR |]; split; [exact PT |].
      exists (h0 ++ [x]); split; [now apply subseq_snoc |]. cbn [who state fst]; rewrite <- PW; exact S'. }
  assert (G : forall n f, (depth L f < n)%nat -> Rel (read1 F1 f) (read2 F2 f)).
  { induction n as [| n IH]; intros f Hn; [lia |].
    pose proof (pairs_find h s s' f HF) as PF.
    destruct (find L B1 s f) as [a |] eqn:G1, (find L B2 s' f) as [a' |] eqn:G2; try contradiction.
    - pose proof (find_stepped L B1 HL s x f a N1 E1 G1) as K1; fold F1 in K1.
      pose proof (find_stepped L B2 HL s' x f a' N2 E2 G2) as K2; fold F2 in K2.
      rewrite (read_result L B1 HL consults on_push HB1 F1 f _ D1 K1).
      rewrite (read_result L B2 HL consults on_push HB2 F2 f _ D2 K2).
      destruct (find_in L B1 HL s f a G1) as [I1 Ff].
      assert (Ia : In (who1 a) ts) by (rewrite <- Hw; now apply in_map).
      assert (Hr : forall d, In d (consults (fst (who1 a))) -> Rel (read1 F1 (feature L d)) (read2 F2 (feature L d))).
      { intros d Hd; apply IH.
        pose proof (supplied_depth L HL consults ts (who1 a) d Hsup Ia Hd) as Hl; rewrite Ff in Hl; lia. }
      destruct (one a a' I1 PF Hr) as [(PW & _ & _ & h0 & Hs & HS) V].
      rewrite <- PW, (stepped_who L B1).
      rewrite (stepped_who L B1) in HS.
      apply (result_rel _ h0); try assumption; [now apply Hok | now apply (P_sub h0 (h ++ [x])) | apply V].
    - assert (K1 : find L B1 F1 f = None).
      { destruct (find L B1 F1 f) as [b |] eqn:Eb; [| reflexivity].
        destruct (find_in L B1 HL F1 f b Eb) as [Ib Fb].
        assert (Iw : In (who1 b) (map who1 s)) by (rewrite Hw, <- W1; now apply in_map).
        apply in_map_iff in Iw; destruct Iw as (c & Ec & Ic).
        pose proof (find_here L B1 HL s c N1 Ic) as Hc; rewrite Ec, Fb in Hc; congruence. }
      assert (K2 : find L B2 F2 f = None).
      { destruct (find L B2 F2 f) as [b |] eqn:Eb; [| reflexivity].
        destruct (find_in L B2 HL F2 f b Eb) as [Ib Fb].
        assert (Iw : In (who2 b) (map who2 s')) by (rewrite Hw', <- W2; now apply in_map).
        apply in_map_iff in Iw; destruct Iw as (c & Ec & Ic).
        pose proof (find_here L B2 HL s' c N2 Ic) as Hc; rewrite Ec, Fb in Hc; congruence. }
      unfold read; cbn; rewrite K1, K2; apply rel_refl. }
  assert (G' : forall f, Rel (read1 F1 f) (read2 F2 f)) by (intros f; apply (G (S (depth L f))); lia).
  constructor; [assumption | | | assumption].
  - rewrite E1, E2.
    assert (M : forall l l', Forall2 (paired h) l l' -> (forall a, In a l -> In a s) ->
              Forall2 (paired (h ++ [x])) (map (stepped L B1 x F1) l) (map (stepped L B2 x F2) l')).
    { intros l l' HFl; induction HFl as [| a a' l l' Ha HFl IHl]; intros Hin; cbn; constructor.
      - apply one; [apply Hin; now left | assumption | intros; apply G'].
      - apply IHl; intros b Hb; apply Hin; now right. }
    now apply M.
  - intros b Hb; rewrite E1 in Hb; apply in_map_iff in Hb; destruct Hb as (a & <- & Ia).
    destruct (pairs_in h s s' a HF Ia) as (a' & Ia' & Pa).
    unfold valid_in; rewrite (stepped_who L B1); apply (one a a' Ia Pa); intros; apply G'.
Qed.

(** A drop. *)
Lemma extract_same : forall (s q : accset L B2), map who2 q = map who2 s ->
  map (state L B2) q = map (state L B2) s -> forall n f, extract L B2 n q f = extract L B2 n s f.
Proof.
  intros s q Ew Es.
  assert (F : forall g, match find L B2 q g, find L B2 s g with
                        | Some a, Some b => who2 a = who2 b /\ state L B2 a = state L B2 b
                        | None, None => True | _, _ => False end).
  { intros g; revert q Ew Es; induction s as [| b s IH]; intros [| a q] Ew Es; cbn in Ew, Es; try discriminate; [exact I |].
    injection Ew as E1 Ew; injection Es as E2 Es; unfold find; cbn; rewrite E1.
    destruct (tag_eqb L g (ffeature L (who2 b))); [now split | now apply IH]. }
  induction n as [| n IH]; intros f; cbn; specialize (F f);
    destruct (find L B2 q f) as [a |], (find L B2 s f) as [b |]; try contradiction; try reflexivity.
  destruct F as [-> ->]; apply (proj2 HB2); intros d _; apply IH.
Qed.
Lemma parallel_drop : forall h s s' t, Parallel h s s' -> Parallel h (drop L B1 t s) (drop L B2 t s').
Proof.
  intros h s s' t [Hw HF HV HP].
  destruct (drop_shape L B1 s t) as [Wd Sd]; destruct (drop_shape L B2 s' t) as [Wd' Sd'].
  constructor; [now rewrite Wd | | | assumption].
  - rewrite !drop_lower, (pairs_who h s s' HF); generalize (rpaths L (map who1 s) t) as k; intros k.
    clear Hw HV Wd Sd Wd' Sd'; unfold lower.
    induction HF as [| a a' s s' (PW & PR & PT & HS) HF IH]; cbn; constructor; [| assumption].
    unfold droppable; rewrite <- PW, <- PR, <- PT.
    destruct (snd (who1 a)); unfold paired; cbn; auto.
  - intros a Ia.
    assert (Hb : exists b, In b s /\ who1 b = who1 a /\ state L B1 b = state L B1 a).
    { clear - Ia Wd Sd; revert Ia Wd Sd; generalize (drop L B1 t s) as q; induction s as [| c s IH];
        intros [| b q] Ia Wd Sd; cbn in *; try discriminate; [destruct Ia |].
      injection Wd as W1 W2; injection Sd as S3 S4; destruct Ia as [-> | Ia].
      - exists c; repeat split; [now left | now symmetry | now symmetry].
      - destruct (IH q Ia W2 S4) as (b' & I' & H'); exists b'; split; [now right | assumption]. }
    destruct Hb as (b & Ib & Eb & Et); pose proof (HV b Ib) as V; unfold valid_in in *; rewrite <- Eb, <- Et.
    apply (law_valid _ (read2 s')); [| exact V].
    intros d _; unfold read; rewrite (extract_same s' _ Wd' Sd'); apply rel_refl.
Qed.

(** An extraction. *)
Lemma put_who : forall f st s, map who1 (put L B1 f st s) = map who1 s.
Proof.
  intros f st s; unfold put; rewrite map_map; apply map_ext; intros a; now destruct (tag_eqb L f _).
Qed.
Lemma parallel_put : forall h s s' f a, Parallel h s s' -> find L B1 s f = Some a -> harmless (fst (who1 a)) ->
  Parallel h (put L B1 f (look (fst (who1 a)) (read1 s) (state L B1 a)) s) s'.
Proof.
  intros h s s' f a HQ Ef Ha; pose proof (parallel_read h s s' HQ) as HR; destruct HQ as [Hw HF HV HP].
  destruct (find_in L B1 HL s f a Ef) as [Ia Fa].
  assert (It : In (who1 a) ts) by (rewrite <- Hw; now apply in_map).
  assert (N1 : Single L (map who1 s)) by (rewrite Hw; exact Hone).
  assert (Lk : forall h0 c, Subseq h0 h -> Sim (fst (who1 a)) h0 (state L B1 a) c ->
     Sim (fst (who1 a)) h0 (look (fst (who1 a)) (read1 s) (state L B1 a)) c /\
     Valid (fst (who1 a)) (read2 s') (look (fst (who1 a)) (read1 s) (state L B1 a))).
  { intros h0 c Hs HS.
    destruct (law_look (fst (who1 a)) h0 (state L B1 a) c (read1 s)) as [S' V']; try assumption.
    - now apply Hok.
    - now apply (P_sub h0 h).
    - apply (law_valid _ (read2 s')); [intros d _; apply rel_sym, HR | exact (HV a Ia)].
    - split; [assumption |]; apply (law_valid _ (read1 s)); [intros d _; apply HR | assumption]. }
  assert (same : forall b, In b s -> tag_eqb L f (ffeature L (who1 b)) = true -> b = a).
  { intros b Ib Eb; apply (ll_eqb L HL) in Eb.
    pose proof (find_here L B1 HL s b N1 Ib) as Hb; rewrite <- Eb, Ef in Hb; now injection Hb. }
  constructor; [now rewrite put_who | | | assumption].
  - unfold put.
    assert (M : forall l l', Forall2 (paired h) l l' -> (forall b, In b l -> In b s) ->
       Forall2 (paired h) (map (fun b => if tag_eqb L f (ffeature L (who1 b))
          then mkAcc L B1 (who1 b) (refs L B1 b) (tripped L B1 b) (look (fst (who1 a)) (read1 s) (state L B1 a)) else b) l) l').
    { intros l l' HFl; induction HFl as [| b b' l l' Hb HFl IH]; cbn; intros Hin; constructor.
      - destruct (tag_eqb L f (ffeature L (who1 b))) eqn:E; [| assumption].
        pose proof (same b (Hin b (or_introl eq_refl)) E) as ->.
        destruct Hb as (PW & PR & PT & h0 & Hs & HS).
        split; [exact PW |]; split; [exact PR |]; split; [exact PT |].
        exists h0; split; [assumption |]; cbn; now apply Lk.
      - apply IH; intros c Hc; apply Hin; now right. }
    now apply M.
  - intros b Hb; unfold put in Hb; apply in_map_iff in Hb; destruct Hb as (c & <- & Ic).
    destruct (tag_eqb L f (ffeature L (who1 c))) eqn:E; [| now apply HV].
    pose proof (same c Ic E) as ->; unfold valid_in; cbn.
    destruct (pairs_in h s s' a HF Ia) as (a' & _ & (_ & _ & _ & h0 & Hs & HS)).
    now apply (Lk h0 (state L B2 a')).
Qed.

Variable shows : tag L -> list (tag L).
Hypothesis asks_shown : forall t st d, In d (asks t st) -> In d (shows t).
(** No accumulator that runs is harmful. *)
Definition Quiet (f : tag L) : Prop :=
  forall t u, In t ts -> ffeature L t = f -> ComputedFrom L shows ts t u -> harmless (fst u).

Lemma parallel_observe : forall n f h s s', Parallel h s s' -> Quiet f -> Parallel h (observe L B1 asks look n f s) s'.
Proof.
  induction n as [| n IH]; intros f h s s' HQ Hq; cbn; [assumption |].
  destruct (find L B1 s f) as [a |] eqn:Ef; [| assumption].
  destruct (find_in L B1 HL s f a Ef) as [Ia Fa].
  assert (It : In (who1 a) ts) by (rewrite <- (par_who h s s' HQ); now apply in_map).
  assert (G : forall ds q, (forall d, In d ds -> In d (shows (fst (who1 a)))) -> Parallel h q s' ->
     Parallel h (fold_left (fun q g => observe L B1 asks look n (feature L g) q) ds q) s').
  { induction ds as [| d ds IHd]; intros q Hds Hp; cbn; [assumption |].
    apply IHd; [intros e He; apply Hds; now right |].
    apply IH; [assumption |]; intros t u Ht Et Hu.
    apply (Hq (who1 a) u It Fa); apply (from_shown L shows ts (who1 a) t d u); try assumption.
    apply Hds; now left. }
  specialize (G (asks (fst (who1 a)) (state L B1 a)) s (asks_shown _ _) HQ).
  set (s1 := fold_left _ _ s) in *.
  destruct (find L B1 s1 f) as [b |] eqn:Eb; [| assumption].
  apply parallel_put; try assumption.
  destruct (find_in L B1 HL s1 f b Eb) as [Ib Fb].
  assert (Ib' : In (who1 b) ts) by (rewrite <- (par_who h s1 s' G); now apply in_map).
  apply (Hq (who1 b) (who1 b) Ib' Fb); now apply from_self.
Qed.

(** A whole session. *)
Definition same_event (e : event L B1) : event L B2 :=
  match e with Push _ _ x => Push L B2 x | Drop _ _ t => Drop L B2 t end.
Definition events (us : list (use L B1)) : list (event L B1) :=
  flat_map (fun u => match u with Event _ _ e => [e] | Extract _ _ _ => [] end) us.
Definition asked (us : list (use L B1)) : list (tag L) :=
  flat_map (fun u => match u with Event _ _ _ => [] | Extract _ _ f => [f] end) us.

Lemma parallel_uses : forall us h s s', Parallel h s s' ->
  P (h ++ samples L B1 (events us)) -> (forall f, In f (asked us) -> Quiet f) ->
  Parallel (h ++ samples L B1 (events us)) (uses L B1 asks look s us) (history L B2 s' (map same_event (events us))).
Proof.
  induction us as [| u us IH]; intros h s s' HQ HP Hq; [cbn; rewrite app_nil_r; assumption |].
  destruct u as [[x | t] | f]; cbn in *.
  - assert (E : h ++ x :: samples L B1 (events us) = (h ++ [x]) ++ samples L B1 (events us)) by now rewrite <- app_assoc.
    assert (HP' : P ((h ++ [x]) ++ samples L B1 (events us))) by (rewrite <- E; exact HP).
    replace (h ++ x :: _) with ((h ++ [x]) ++ samples L B1 (events us)) by (symmetry; exact E).
    apply IH; [| assumption | assumption]; apply parallel_push; [assumption |].
    apply (P_sub _ ((h ++ [x]) ++ samples L B1 (events us))); [| assumption].
    generalize (samples L B1 (events us)) as l; induction l as [| y l IHl] using rev_ind;
      [rewrite app_nil_r; apply subseq_refl | rewrite app_assoc; now apply subseq_late].
  - apply IH; [now apply parallel_drop | assumption | assumption].
  - apply IH; [| assumption |].
    + exact (parallel_observe (S (depth L f)) f h s s' HQ (Hq f (or_introl eq_refl))).
    + intros g Hg; apply Hq; now right.
Qed.

(** From the beginning. *)
Variable enum : fmap L -> fmap L.
Variable W : bool.
Variable fs : list (request L).
Hypothesis Hts : ts = make_tuple L enum W fs.
Lemma parallel_construct : P [] -> Parallel [] (construct L B1 enum W fs) (construct L B2 enum W fs).
Proof.
  intros HP; constructor; [now rewrite construct_who | | | assumption].
  - rewrite !construct_raise; unfold raise; rewrite !map_map.
    generalize (total_paths L enum W fs) as k, (make_tuple L enum W fs) as l; intros k l; clear Hts.
    induction l as [| t l IH]; cbn; constructor; [| assumption].
    unfold droppable; cbn; destruct (snd t); unfold paired; cbn; (repeat split); exists [];
      (split; [constructor | apply law_init]).
  - intros a Ia; rewrite construct_raise in Ia; unfold raise in Ia; rewrite map_map in Ia.
    apply in_map_iff in Ia; destruct Ia as (t & <- & It); unfold droppable; cbn.
    destruct (snd t); unfold valid_in; cbn; apply law_init.
Qed.
Theorem extractions_observe : forall us f, P (samples L B1 (events us)) -> (forall g, In g (asked us) -> Quiet g) ->
  Rel (read1 (uses L B1 asks look (construct L B1 enum W fs) us) f)
      (read2 (history L B2 (construct L B2 enum W fs) (map same_event (events us))) f).
Proof.
  intros us f HP Hq; apply (parallel_read (samples L B1 (events us))).
  apply (parallel_uses us []); [| assumption | assumption].
  apply parallel_construct, (P_sub _ (samples L B1 (events us))); [| assumption].
  apply subseq_none.
Qed.
End Observation.
