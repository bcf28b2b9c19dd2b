(** Two sets that differ in what no accumulator will ever use go on in the same way; saving one and
    loading it into another set gives such a pair. *)
From Coq Require Import List ZArith Bool Lia Arith.
From Verif Require Import Num ModelFramework SpecFramework ProofFramework ProofFrameworkRef ProofFrameworkRun.
From Verif Require Import ModelObserve SpecMachine ModelArchive ModelSetArchive.
Import ListNotations.

Section Alike.
Variable L : Lib.
Variable B : Behaviour L.
Variable T : Type.
Variable codec_of : tag L -> option (codec T (State L B)).
Variable asks : tag L -> State L B -> list (tag L).
Variable look : tag L -> (tag L -> Result L B) -> State L B -> State L B.

Variable Rel : Result L B -> Result L B -> Prop.
Hypothesis rel_refl : forall v, Rel v v.
(** The accumulators that can be saved. *)
Variable ok : tag L -> Prop.
Variable same : State L B -> State L B -> Prop.
Variable shape : tag L -> State L B -> Prop.
Hypothesis same_step : forall t r r' x s s', ok t -> same s s' -> (forall f, Rel (r f) (r' f)) ->
  same (step L B t r x s) (step L B t r' x s').
Hypothesis same_result : forall t r r' s s', ok t -> same s s' -> (forall f, Rel (r f) (r' f)) ->
  Rel (result L B t r s) (result L B t r' s').
Hypothesis same_asks : forall t s s', same s s' -> asks t s = asks t s'.
Hypothesis same_look : forall t r r' s s', ok t -> same s s' -> (forall f, Rel (r f) (r' f)) ->
  same (look t r s) (look t r' s').
Hypothesis saved : forall t, ok t -> exists c, codec_of t = Some c /\
  forall s rest, shape t s -> exists s', dec c (enc c s ++ rest) = Some (s', rest) /\ same s s'.

Local Notation acc := (acc L B).
Local Notation accset := (accset L B).
Local Notation who := (who L B).
Local Notation refs := (refs L B).
Local Notation tripped := (tripped L B).
Local Notation state := (state L B).

Definition twin (a a' : acc) : Prop :=
  who a = who a' /\ refs a = refs a' /\ tripped a = tripped a' /\ ok (fst (who a)) /\ same (state a) (state a').
Definition alike (s s' : accset) : Prop := Forall2 twin s s'.

Lemma alike_find : forall s s' f, alike s s' ->
  match find L B s f, find L B s' f with
  | Some a, Some a' => twin a a'
  | None, None => True
  | _, _ => False
  end.
Proof.
  intros s s' f H; induction H as [| a a' s s' H F IH]; cbn; [exact I |].
  unfold find in *; cbn; rewrite <- (proj1 H); destruct (tag_eqb L f (ffeature L (who a))); assumption.
Qed.
Lemma alike_extract : forall s s', alike s s' -> forall n f, Rel (extract L B n s f) (extract L B n s' f).
Proof.
  intros s s' H; induction n as [| n IH]; intros f; cbn; pose proof (alike_find s s' f H) as F;
    destruct (find L B s f) as [a |], (find L B s' f) as [a' |]; try contradiction; try apply rel_refl.
  destruct F as (E & _ & _ & O & S); rewrite <- E; now apply same_result.
Qed.
Lemma alike_read : forall s s', alike s s' -> forall f, Rel (read L B s f) (read L B s' f).
Proof. intros s s' H f; now apply alike_extract. Qed.

Lemma alike_operate : forall s s' x a a', alike s s' -> twin a a' -> twin (operate L B s x a) (operate L B s' x a').
Proof.
  intros s s' x a a' H (E1 & E2 & E3 & O & S); unfold operate, is_dropped, droppable; rewrite <- E1, <- E2.
  destruct (snd (who a) && (refs a =? 0)%Z); unfold twin; cbn; repeat split; auto.
  apply same_step; auto; now apply alike_read.
Qed.
Lemma alike_visit : forall x todo todo' done done', alike done done' -> alike todo todo' ->
  alike (visit L B x done todo) (visit L B x done' todo').
Proof.
  intros x; induction todo as [| a todo IH]; intros todo' done done' Hd Ht; inversion Ht; subst; cbn; [assumption |].
  apply IH; [| assumption]; apply Forall2_app; [assumption |]; constructor; [| constructor].
  apply alike_operate; [now apply Forall2_app | assumption].
Qed.
Lemma alike_who : forall s s', alike s s' -> map who s = map who s'.
Proof. intros s s' H; induction H as [| a a' s s' H F IH]; cbn; [reflexivity |]; now rewrite (proj1 H), IH. Qed.
Lemma alike_drop : forall t s s', alike s s' -> alike (drop L B t s) (drop L B t s').
Proof.
  intros t s s' H; rewrite !drop_lower, (alike_who s s' H); generalize (rpaths L (map who s') t) as k; intros k.
  unfold lower; induction H as [| a a' s s' (E1 & E2 & E3 & O & S) F IH]; cbn; constructor; [| assumption].
  unfold droppable; rewrite <- E1, <- E2, <- E3; destruct (snd (who a)); unfold twin; cbn; auto.
Qed.
Lemma alike_handle : forall e s s', alike s s' -> alike (handle L B s e) (handle L B s' e).
Proof. intros [x | t] s s' H; cbn; [apply alike_visit; [constructor | assumption] | now apply alike_drop]. Qed.

Lemma alike_put : forall f st st' s s', alike s s' ->
  (forall a a', In a s -> In a' s' -> twin a a' -> tag_eqb L f (ffeature L (who a)) = true -> same st st') ->
  alike (put L B f st s) (put L B f st' s').
Proof.
  intros f st st' s s' H; induction H as [| a a' s s' (E1 & E2 & E3 & O & S) F IH]; intros HS; cbn; constructor.
  - rewrite <- E1; destruct (tag_eqb L f (ffeature L (who a))) eqn:E; [| unfold twin; auto].
    unfold twin; cbn; rewrite E1, E2, E3; repeat split; auto; [now rewrite <- E1 |].
    apply (HS a a'); [now left | now left | unfold twin; auto | assumption].
  - apply IH; intros b b' Hb Hb'; apply HS; now right.
Qed.
Lemma alike_observe : forall n f s s', alike s s' ->
  alike (observe L B asks look n f s) (observe L B asks look n f s').
Proof.
  induction n as [| n IH]; intros f s s' H; cbn; [assumption |].
  pose proof (alike_find s s' f H) as F.
  destruct (find L B s f) as [a |], (find L B s' f) as [a' |]; try contradiction; [| assumption].
  destruct F as (E1 & E2 & E3 & O & S); rewrite <- E1, <- (same_asks _ _ _ S).
  assert (G : forall ds q q', alike q q' ->
    alike (fold_left (fun q g => observe L B asks look n (feature L g) q) ds q)
          (fold_left (fun q g => observe L B asks look n (feature L g) q) ds q')).
  { induction ds as [| d ds IHd]; intros q q' Hq; cbn; [assumption |]; apply IHd; now apply IH. }
  specialize (G (asks (fst (who a)) (state a)) s s' H).
  set (q := fold_left _ _ s) in *; set (q' := fold_left _ _ s') in *.
  pose proof (alike_find q q' f G) as F'.
  destruct (find L B q f) as [b |], (find L B q' f) as [b' |]; try contradiction; [| assumption].
  destruct F' as (F1 & F2 & F3 & F4 & F5); rewrite <- F1; apply alike_put; [assumption |].
  intros; apply same_look; auto; now apply alike_read.
Qed.
Lemma alike_extracted : forall f s s', alike s s' ->
  alike (extracted L B asks look f s) (extracted L B asks look f s').
Proof. intros f s s' H; unfold extracted; now apply alike_observe. Qed.

(** ** Saving and loading *)
Definition shaped (s : accset) : Prop := Forall (fun a => ok (fst (who a)) /\ shape (fst (who a)) (state a)) s.

Lemma load_alike : forall s s0, counts L B s0 = counts L B s -> shaped s ->
  exists s', load_set L B T codec_of s0 (save_set L B T codec_of s) = Some s' /\ alike s s'.
Proof.
  induction s as [| a s IH]; intros [| a0 s0] E Hs; cbn in E; try discriminate E; [exists []; split; [reflexivity | constructor] |].
  inversion Hs as [| ? ? [Hok Hsh] Hs']; subst; injection E as Ew Er Et Es.
  destruct (saved _ Hok) as (c & Ec & Hc).
  destruct (IH s0 Es Hs') as (s' & E' & H').
  destruct (Hc (state a) (save_set L B T codec_of s) Hsh) as (st & E1 & S1).
  exists (mkAcc L B (who a0) (refs a0) (tripped a0) st :: s'); split.
  - cbn -[who]; rewrite Ew, Ec, E1, E'; reflexivity.
  - constructor; [| assumption]; unfold twin; cbn; repeat split; auto.
Qed.
End Alike.
