(** Two sets with the same accumulators that get related samples stay related (for C86). *)
From Coq Require Import List Bool Arith ZArith.
From Verif Require Import ModelFramework.
Import ListNotations.

Section Related.
Variable L : Lib.
Variables X R S1 S2 : Type.
Variable ab : R.
Variable init1 : tag L -> S1.
Variable step1 : tag L -> (tag L -> R) -> X -> S1 -> S1.
Variable result1 : tag L -> (tag L -> R) -> S1 -> R.
Variable init2 : tag L -> S2.
Variable step2 : tag L -> (tag L -> R) -> X -> S2 -> S2.
Variable result2 : tag L -> (tag L -> R) -> S2 -> R.
Local Notation B1 := (mkBehaviour L S1 X R ab init1 step1 result1).
Local Notation B2 := (mkBehaviour L S2 X R ab init2 step2 result2).
Variable ok : tag L -> Prop.
Variable XR : X -> X -> Prop.
Variable RV : R -> R -> Prop.
Variable Sim : tag L -> S1 -> S2 -> Prop.
Hypothesis absent_rel : RV ab ab.
Hypothesis init_rel : forall t, ok t -> Sim t (init1 t) (init2 t).
Hypothesis step_rel : forall t r r' x x' s s', ok t -> (forall f, RV (r f) (r' f)) -> XR x x' -> Sim t s s' ->
  Sim t (step1 t r x s) (step2 t r' x' s').
Hypothesis result_rel : forall t r r' s s', ok t -> (forall f, RV (r f) (r' f)) -> Sim t s s' ->
  RV (result1 t r s) (result2 t r' s').

Definition akin (a : acc L B1) (a' : acc L B2) : Prop :=
  who L B1 a = who L B2 a' /\ refs L B1 a = refs L B2 a' /\ tripped L B1 a = tripped L B2 a' /\
  ok (fst (who L B1 a)) /\ Sim (fst (who L B1 a)) (state L B1 a) (state L B2 a').
Definition kin : accset L B1 -> accset L B2 -> Prop := Forall2 akin.

Lemma kin_who s s' : kin s s' -> map (who L B1) s = map (who L B2) s'.
Proof. induction 1 as [|a a' s s' (E & _) _ IH]; cbn; congruence. Qed.

Lemma kin_find s s' f : kin s s' ->
  match find L B1 s f, find L B2 s' f with Some a, Some a' => akin a a' | None, None => True | _, _ => False end.
Proof.
  unfold find. induction 1 as [|a a' s s' Ha H IH]; cbn [List.find]; [exact I |]. destruct Ha as (E & Ha). rewrite <- E.
  destruct (tag_eqb L f (ffeature L (who L B1 a))); [split; assumption | exact IH].
Qed.

Lemma kin_extract s s' : kin s s' -> forall n f, RV (extract L B1 n s f) (extract L B2 n s' f).
Proof.
  intros H. induction n as [|n IH]; intros f; cbn [extract]; assert (F := kin_find s s' f H);
    destruct (find L B1 s f), (find L B2 s' f); try contradiction F; try exact absent_rel.
  destruct F as (E & _ & _ & O & M). cbn [result]. rewrite <- E. now apply result_rel.
Qed.

Lemma kin_read s s' f : kin s s' -> RV (read L B1 s f) (read L B2 s' f).
Proof. intros H. now apply kin_extract. Qed.

Lemma kin_visit x x' : XR x x' -> forall todo todo' done done', kin done done' -> kin todo todo' ->
  kin (visit L B1 x done todo) (visit L B2 x' done' todo').
Proof.
  intros HX. induction todo as [|a todo IH]; intros todo' done done' D H; inversion H as [|? a' ? t' Ha Ht]; subst; [exact D |].
  cbn [visit]. apply IH; [| exact Ht]. apply Forall2_app; [exact D |]. constructor; [| constructor].
  assert (A : kin (done ++ a :: todo) (done' ++ a' :: t')) by (apply Forall2_app; assumption).
  destruct Ha as (E & Er & Et & O & M). unfold operate, is_dropped, droppable. rewrite <- E, <- Er.
  destruct (_ && _); [repeat split; assumption |]. split; [reflexivity | split; [reflexivity | split; [exact Et | split; [exact O |]]]].
  cbn [who state step]. apply step_rel; [exact O | | exact HX | exact M]. intros f. now apply kin_read.
Qed.

Lemma kin_push s s' x x' : XR x x' -> kin s s' -> kin (push L B1 s x) (push L B2 s' x').
Proof. intros HX H. apply kin_visit; [exact HX | constructor | exact H]. Qed.

Lemma kin_map (g1 : acc L B1 -> acc L B1) (g2 : acc L B2 -> acc L B2) s s' : (forall a a', akin a a' -> akin (g1 a) (g2 a')) ->
  kin s s' -> kin (map g1 s) (map g2 s').
Proof. intros G. induction 1; cbn; constructor; [now apply G | assumption]. Qed.

Lemma kin_add_ref1 f s s' : kin s s' -> kin (add_ref1 L B1 f s) (add_ref1 L B2 f s').
Proof.
  apply kin_map. intros a a' (E & Er & Et & O & M). unfold droppable. rewrite <- E. destruct (_ && _).
  - split; [reflexivity |]. split; [cbn [refs]; congruence |]. split; [exact Et | split; assumption].
  - split; [exact E | split; [exact Er | split; [exact Et | split; assumption]]].
Qed.
Lemma kin_drop1 f s s' : kin s s' -> kin (drop1 L B1 f s) (drop1 L B2 f s').
Proof.
  apply kin_map. intros a a' (E & Er & Et & O & M). unfold droppable. rewrite <- E. destruct (_ && _).
  - split; [reflexivity |]. split; [cbn [refs]; congruence |]. split; [cbn [tripped]; congruence | split; assumption].
  - split; [exact E | split; [exact Er | split; [exact Et | split; assumption]]].
Qed.

Lemma kin_fold {U : Type} (g1 : accset L B1 -> U -> accset L B1) (g2 : accset L B2 -> U -> accset L B2) :
  (forall s s' u, kin s s' -> kin (g1 s u) (g2 s' u)) -> forall l s s', kin s s' -> kin (fold_left g1 l s) (fold_left g2 l s').
Proof. intros G. induction l as [|u l IH]; intros s s' H; [exact H |]. cbn. apply IH, G, H. Qed.

Lemma kin_drop_ref n : forall t s s', kin s s' -> kin (drop_ref L B1 n t s) (drop_ref L B2 n t s').
Proof.
  induction n as [|n IH]; intros t s s' H; cbn [drop_ref]; [exact H |]. destruct (snd t); [| exact H].
  rewrite <- (kin_who s s' H). apply kin_fold; [| now apply kin_drop1]. intros. now apply IH.
Qed.
Lemma kin_add_ref n : forall t s s', kin s s' -> kin (add_ref L B1 n t s) (add_ref L B2 n t s').
Proof.
  induction n as [|n IH]; intros t s s' H; cbn [add_ref]; [exact H |].
  rewrite <- (kin_who s s' H). apply kin_fold; [| now apply kin_add_ref1]. intros. now apply IH.
Qed.
Lemma kin_drop t s s' : kin s s' -> kin (drop L B1 t s) (drop L B2 t s').
Proof.
  intros H. unfold drop. rewrite <- (kin_who s s' H). apply kin_fold; [| now apply kin_drop1]. intros. now apply kin_drop_ref.
Qed.

Lemma kin_construct enum W fs : (forall t, In t (make_tuple L enum W fs) -> ok (fst t)) ->
  kin (construct L B1 enum W fs) (construct L B2 enum W fs).
Proof.
  intros O. unfold construct. apply kin_fold; [intros; now apply kin_add_ref |].
  induction (make_tuple L enum W fs) as [|t ts IH]; cbn [map]; constructor.
  - split; [reflexivity | split; [reflexivity | split; [reflexivity |]]]. cbn [who state init].
    assert (o : ok (fst t)) by (apply O; now left). split; [exact o | now apply init_rel].
  - apply IH. intros u Hu. apply O. now right.
Qed.
End Related.
