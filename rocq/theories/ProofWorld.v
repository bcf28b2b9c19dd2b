(** Proofs about programs with several sets (C78). *)
From Coq Require Import List ZArith Bool Arith Lia.
From Verif Require Import Num ModelFramework SpecFramework ProofFramework ProofFrameworkRef ProofFrameworkRun.
From Verif Require Import ModelExternal SpecExternal ProofExternal ModelWorld SpecWorld.
Import ListNotations.

Section World.
Variable L : Lib.
Variable B : Behaviour L.
Variable ext : tag L -> bool.
Variable enum : fmap L -> fmap L.
Local Notation E := (ExtB L B ext).
Local Notation object := (object L B ext).
Local Notation world := (world L B ext).
Local Notation object_at := (object_at L B ext).
Local Notation replace := (replace L B ext).
Local Notation exec := (exec L B ext enum).
Local Notation execute := (execute L B ext enum).
Local Notation asked := (asked L B ext).
Local Notation answer := (answer L B ext).
Local Notation life_of := (life_of L B).

Lemma at_replace : forall (w : world) i o k, object_at w i <> None ->
  object_at (replace i o w) k = if Nat.eqb k i then o else object_at w k.
Proof.
  unfold ModelWorld.object_at; induction w as [| p w IH]; intros [| i] o k H; cbn in *; try now elim H.
  - destruct k; reflexivity.
  - destruct k; [reflexivity |]; cbn; now apply IH.
Qed.
Lemma replace_length : forall (w : world) i o, length (replace i o w) = length w.
Proof. induction w as [| p w IH]; intros [| i] o; cbn; try reflexivity; now rewrite IH. Qed.
Lemma at_app : forall (w : world) o k, object_at (w ++ [o]) k = if Nat.eqb k (length w) then o else object_at w k.
Proof.
  unfold ModelWorld.object_at; induction w as [| p w IH]; intros o k; destruct k; cbn; try reflexivity.
  - now destruct k.
  - apply IH.
Qed.

Lemma execute_app : forall es fs (o : outcome world), execute (es ++ fs) o = execute fs (execute es o).
Proof. intros; unfold ModelWorld.execute; apply fold_left_app. Qed.
Lemma execute_snoc : forall es e (o : outcome world) w', execute (es ++ [e]) o = Ok w' ->
  exists w, execute es o = Ok w /\ exec w e = Ok w'.
Proof.
  intros es e o w'; rewrite execute_app; cbn.
  destruct (execute es o) as [w | |]; try discriminate; now exists w.
Qed.
Lemma execute_cons : forall e es w w', execute (e :: es) (Ok w) = Ok w' -> exists w1, exec w e = Ok w1 /\ execute es (Ok w1) = Ok w'.
Proof.
  intros e es w w'; change (e :: es) with ([e] ++ es); rewrite execute_app; cbn.
  destruct (exec w e) as [w1 | |]; [now exists w1 | |];
    intros H; exfalso; revert H; induction es as [| d es IH]; try discriminate; exact IH.
Qed.

(** One statement: what becomes of object [k]. *)
Definition becomes (w : world) (e : statement L B) (k : nat) : option object :=
  match e with
  | Create W fs => if Nat.eqb k (length w) then Some (Plain (construct L B enum W fs)) else object_at w k
  | CreateReferring W fs a => if Nat.eqb k (length w) then Some (Referring (construct L E enum W fs) a) else object_at w k
  | CopyOf i => if Nat.eqb k (length w) then object_at w i else object_at w k
  | AssignTo i j => if Nat.eqb k i then object_at w j else object_at w k
  | PushTo i x => if Nat.eqb k i then
      match object_at w k with
      | Some (Plain s) => Some (Plain (push L B s x))
      | Some (Referring s a) => match asked w a with Some env => Some (Referring (push_with L B ext s (x, env)) a) | None => None end
      | None => None
      end else object_at w k
  | DropIn i t => if Nat.eqb k i then
      match object_at w k with
      | Some (Plain s) => Some (Plain (drop L B t s))
      | Some (Referring s a) => Some (Referring (drop L E t s) a)
      | None => None
      end else object_at w k
  | Destroy i => if Nat.eqb k i then None else object_at w k
  end.
Lemma exec_becomes : forall w e w', exec w e = Ok w' ->
  (forall k, object_at w' k = becomes w e k) /\ length w' = (length w + (if creates L B e then 1 else 0))%nat.
Proof.
  intros w e w' H; destruct e as [W fs | W fs a | i | i j | i x | i t | i]; cbn [ModelWorld.exec becomes creates] in *.
  - injection H as <-; split; [intros k; apply at_app | now rewrite app_length].
  - injection H as <-; split; [intros k; apply at_app | now rewrite app_length].
  - destruct (object_at w i) as [o |] eqn:Ei; [| discriminate]; injection H as <-; split; [intros k; apply at_app | now rewrite app_length].
  - destruct (object_at w i) as [[si | si ai] |] eqn:Ei; try discriminate;
      destruct (object_at w j) as [[sj | sj aj] |] eqn:Ej; try discriminate;
      injection H as <-; (split; [intros k; apply at_replace; now rewrite Ei | rewrite replace_length; lia]).
  - destruct (object_at w i) as [[si | si ai] |] eqn:Ei; try discriminate.
    + injection H as <-; split; [| rewrite replace_length; lia].
      intros k; rewrite at_replace by now rewrite Ei.
      destruct (Nat.eqb_spec k i) as [-> |]; [now rewrite Ei | reflexivity].
    + destruct (asked w ai) as [env |] eqn:A; [| discriminate].
      injection H as <-; split; [| rewrite replace_length; lia].
      intros k; rewrite at_replace by now rewrite Ei.
      destruct (Nat.eqb_spec k i) as [-> |]; [now rewrite Ei, A | reflexivity].
  - destruct (object_at w i) as [[si | si ai] |] eqn:Ei; try discriminate;
      (injection H as <-; split; [| rewrite replace_length; lia];
       intros k; rewrite at_replace by (now rewrite Ei);
       destruct (Nat.eqb_spec k i) as [-> |]; [now rewrite Ei | reflexivity]).
  - destruct (object_at w i) as [o |] eqn:Ei; [| discriminate]; injection H as <-; split; [| rewrite replace_length; lia].
    intros k; apply at_replace; now rewrite Ei.
Qed.

(** What is known of a referring set: the accumulators it was made with, the external ones keep nothing. *)
Definition holds (W : bool) (fs : list (request L)) (s : accset L E) : Prop :=
  map (who L E) s = make_tuple L enum W fs /\
  forall a, In a s -> ext (fst (who L E a)) = true -> exists y, state L E a = inr y.
Lemma holds_new : forall W fs, holds W fs (construct L E enum W fs).
Proof.
  intros W fs; split; [apply construct_who |]; intros a Ha Xa.
  rewrite (built_state L E enum W fs a Ha); cbn; rewrite Xa; now eexists.
Qed.
Lemma holds_bind : forall W fs env s, holds W fs s -> holds W fs (bind L B ext env s).
Proof.
  intros W fs env s [IW IS]; split; [rewrite bind_who; exact IW |].
  intros b Ib Xb; unfold ModelExternal.bind in Ib; rewrite in_map_iff in Ib; destruct Ib as [b0 [E0 I0]].
  subst b; destruct (state L E b0) as [c0 | y0] eqn:S0; [| now eexists].
  destruct (IS b0 I0 Xb) as [y Hy]; congruence.
Qed.
Lemma holds_push : forall W fs s c, holds W fs s -> holds W fs (push_with L B ext s c).
Proof.
  intros W fs s [x env] H; unfold push_with; cbn [fst snd].
  destruct (holds_bind W fs env s H) as [IW IS]; set (q := bind L B ext env s) in *.
  split; [rewrite (proj1 (push_shape L E q x)); exact IW |].
  intros a Ha Xa; apply In_nth_error in Ha; destruct Ha as [i Hi].
  destruct (nth_error q i) as [b |] eqn:Eb.
  - destruct (push_nth L E q x i b Eb) as [c Hc]; rewrite Hi in Hc; injection Hc as ->.
    assert (Ib : In b q) by (eapply nth_error_In; exact Eb).
    assert (Xb : ext (fst (who L E b)) = true)
      by (revert Xa; unfold operate; destruct (is_dropped L E b); exact (fun h => h)).
    destruct (IS b Ib Xb) as [y Hy]; unfold operate; destruct (is_dropped L E b); [now exists y |].
    cbn; rewrite Hy; now eexists.
  - exfalso; apply nth_error_None in Eb; assert (Hl : (i < length (push L E q x))%nat) by (apply nth_error_Some; now rewrite Hi).
    pose proof (f_equal (@length _) (proj1 (push_shape L E q x))) as El; rewrite !map_length in El; lia.
Qed.
Lemma holds_drop : forall W fs s t, holds W fs s -> holds W fs (drop L E t s).
Proof.
  intros W fs s t [IW IS]; destruct (drop_shape L E s t) as [D1 D2]; split; [rewrite D1; exact IW |].
  intros a Ha Xa; apply In_nth_error in Ha; destruct Ha as [i Hi].
  pose proof (map_nth_error (who L E) i _ Hi) as N1; pose proof (map_nth_error (state L E) i _ Hi) as N2.
  rewrite D1 in N1; rewrite D2 in N2.
  destruct (nth_error s i) as [b |] eqn:Eb.
  - rewrite (map_nth_error (who L E) i _ Eb) in N1; rewrite (map_nth_error (state L E) i _ Eb) in N2.
    injection N1 as N1; injection N2 as N2; rewrite <- N2; apply IS; [eapply nth_error_In; exact Eb | now rewrite N1].
  - apply nth_error_None in Eb; rewrite <- (map_length (who L E)) in Eb; apply nth_error_None in Eb; congruence.
Qed.

Definition tells (o : option object) (l : option (life L B)) : Prop :=
  match l with
  | None => o = None
  | Some l =>
      match referent L B l with
      | None => o = Some (Plain (history L B (construct L B enum (weighted L B l) (features L B l)) (events L B l)))
      | Some a => exists s, o = Some (Referring s a) /\ holds (weighted L B l) (features L B l) s
      end
  end.
Lemma story : forall es w, execute es (Ok []) = Ok w ->
  length w = objects L B es /\ forall k, tells (object_at w k) (life_of k (rev es)).
Proof.
  induction es as [| e es IH] using rev_ind; intros w' H.
  - cbn in H; injection H as <-; split; [reflexivity |]; intros [| k]; reflexivity.
  - apply execute_snoc in H; destruct H as [w [Hw He]].
    destruct (IH w Hw) as [Hl Ht]; destruct (exec_becomes w e w' He) as [Hb Hlen].
    split.
    { rewrite Hlen, Hl; unfold objects; rewrite filter_app, app_length; cbn; now destruct (creates L B e). }
    intros k; rewrite Hb, rev_app_distr; cbn [rev app].
    assert (Hr : objects L B (rev es) = length w).
    { rewrite Hl; unfold objects; clear; induction es as [| d es IH]; [reflexivity |].
      cbn [rev filter]; rewrite filter_app, app_length, IH; cbn; destruct (creates L B d); cbn; lia. }
    destruct e as [W fs | W fs a | i | i j | i x | i t | i]; cbn [becomes SpecWorld.life_of]; rewrite ?Hr.
    + destruct (Nat.eqb k (length w)); [reflexivity | apply Ht].
    + destruct (Nat.eqb k (length w)); [cbn; exists (construct L E enum W fs); split; [reflexivity | apply holds_new] | apply Ht].
    + destruct (Nat.eqb k (length w)); apply Ht.
    + destruct (Nat.eqb k i); apply Ht.
    + destruct (Nat.eqb_spec k i) as [-> | N]; [| apply Ht].
      specialize (Ht i); destruct (life_of i (rev es)) as [[W fs r ev] |]; cbn [tells more referent weighted features events] in *.
      * destruct r as [a |].
        -- destruct Ht as [s [Hs Hh]]; rewrite Hs.
           pose proof (Hb i) as Hx; cbn in He; rewrite Hs in He.
           destruct (asked w a) as [env |]; [| discriminate].
           exists (push_with L B ext s (x, env)); split; [reflexivity | now apply holds_push].
        -- rewrite Ht; unfold history; rewrite fold_left_app; reflexivity.
      * now rewrite Ht.
    + destruct (Nat.eqb_spec k i) as [-> | N]; [| apply Ht].
      specialize (Ht i); destruct (life_of i (rev es)) as [[W fs r ev] |]; cbn [tells more referent weighted features events] in *.
      * destruct r as [a |].
        -- destruct Ht as [s [Hs Hh]]; rewrite Hs.
           exists (drop L E t s); split; [reflexivity | now apply holds_drop].
        -- rewrite Ht; unfold history; rewrite fold_left_app; reflexivity.
      * now rewrite Ht.
    + destruct (Nat.eqb k i); [reflexivity | apply Ht].
Qed.

(** Every set with accumulators of its own answers for its own life. *)
Theorem own_life : forall es w k l, execute es (Ok []) = Ok w -> life_of k (rev es) = Some l -> referent L B l = None ->
  forall f, answer w k f = Ok (read L B (history L B (construct L B enum (weighted L B l) (features L B l)) (events L B l)) f).
Proof.
  intros es w k l H Hk Hr f; destruct (story es w H) as [_ Ht]; specialize (Ht k).
  rewrite Hk in Ht; cbn in Ht; rewrite Hr in Ht; unfold ModelWorld.answer; now rewrite Ht.
Qed.
Theorem no_life : forall es w k, execute es (Ok []) = Ok w -> life_of k (rev es) = None -> forall f, answer w k f = UB.
Proof.
  intros es w k H Hk f; destruct (story es w H) as [_ Ht]; specialize (Ht k).
  rewrite Hk in Ht; cbn in Ht; unfold ModelWorld.answer; now rewrite Ht.
Qed.

(** What is not touched does not change. *)
Lemma untouched_object : forall es w w' k, execute es (Ok w) = Ok w' -> (forall e, In e es -> ~ Touches L B k e) -> (k < length w)%nat ->
  object_at w' k = object_at w k.
Proof.
  induction es as [| e es IH]; intros w w' k H N Hk; [cbn in H; now injection H as <- |].
  apply execute_cons in H; destruct H as [w1 [He H]].
  destruct (exec_becomes w e w1 He) as [Hb Hl].
  rewrite (IH w1 w' k H) by (try (intros d Hd; apply N; now right); rewrite Hl; lia).
  rewrite Hb; pose proof (N e (or_introl eq_refl)) as T.
  destruct e as [W fs | W fs a | i | i j | i x | i t | i]; cbn [becomes Touches] in *.
  1,2,3: destruct (Nat.eqb_spec k (length w)); [lia | reflexivity].
  1,2,3,4: destruct (Nat.eqb_spec k i); [congruence | reflexivity].
Qed.
Theorem untouched : forall es w w' k, execute es (Ok w) = Ok w' -> (forall e, In e es -> ~ Touches L B k e) ->
  (forall s a, object_at w k = Some (Referring s a) -> (a < length w)%nat /\ forall e, In e es -> ~ Touches L B a e) ->
  (k < length w)%nat -> forall f, answer w' k f = answer w k f.
Proof.
  intros es w w' k H N R Hk f; unfold ModelWorld.answer; rewrite (untouched_object es w w' k H N Hk).
  destruct (object_at w k) as [[s | s a] |] eqn:Ek; [reflexivity | | reflexivity].
  destruct (R s a eq_refl) as [Ha Na]; unfold ModelWorld.asked; now rewrite (untouched_object es w w' a H Na Ha).
Qed.

(** A copy goes on as the original would. *)
Lemma same_way : forall es w w' v v' i k, execute es (Ok w) = Ok w' -> execute (map (instead L B k) es) (Ok v) = Ok v' ->
  (forall e, In e es -> OnlyTouches L B i e) ->
  object_at w i = object_at v k -> (forall s a, object_at w i = Some (Referring s a) -> asked w a = asked v a) ->
  object_at w' i = object_at v' k /\ (forall s a, object_at w' i = Some (Referring s a) -> asked w' a = asked v' a).
Proof.
  induction es as [| e es IH]; intros w w' v v' i k H1 H2 N E1 R; [cbn in H1, H2; injection H1 as <-; injection H2 as <-; now split |].
  apply execute_cons in H1; destruct H1 as [w1 [He H1]].
  cbn [map] in H2; apply execute_cons in H2; destruct H2 as [v1 [Hf H2]].
  destruct (exec_becomes _ _ _ He) as [Hb _]; destruct (exec_becomes _ _ _ Hf) as [Hc _].
  pose proof (N e (or_introl eq_refl)) as T.
  apply (IH w1 w' v1 v' i k H1 H2); [intros d Hd; apply N; now right | |]; clear IH H1 H2 N.
  - rewrite Hb, Hc; destruct e as [W fs | W fs a | i0 | i0 j | i0 x | i0 t | i0]; cbn in T; try now elim T.
    + subst i0; cbn [instead becomes]; rewrite !Nat.eqb_refl, <- E1.
      destruct (object_at w i) as [[s | s a] |] eqn:Ei; [reflexivity | | reflexivity].
      now rewrite (R s a eq_refl).
    + subst i0; cbn [instead becomes]; rewrite !Nat.eqb_refl, <- E1; reflexivity.
  - intros s a Hs; pose proof Hs as Hw1; rewrite Hb in Hs.
    assert (Ew : exists s0, object_at w i = Some (Referring s0 a)).
    { destruct e as [W fs | W fs a0 | i0 | i0 j | i0 x | i0 t | i0]; cbn in T; try now elim T.
      + subst i0; cbn [becomes] in Hs; rewrite Nat.eqb_refl in Hs.
        destruct (object_at w i) as [[s0 | s0 a0] |] eqn:Ei; try discriminate.
        destruct (asked w a0) as [env |]; [| discriminate]; injection Hs as _ ->; now exists s0.
      + subst i0; cbn [becomes] in Hs; rewrite Nat.eqb_refl in Hs.
        destruct (object_at w i) as [[s0 | s0 a0] |] eqn:Ei; try discriminate.
        injection Hs as _ ->; now exists s0. }
    destruct Ew as [s0 Ew]; pose proof (R s0 a Ew) as A.
    assert (F1 : forall b, b <> i -> object_at w1 b = object_at w b).
    { intros b Hbi; rewrite Hb; destruct e; cbn in T; try now elim T; subst; cbn [becomes];
        (destruct (Nat.eqb_spec b i); [congruence | reflexivity]). }
    assert (F2 : forall b, b <> k -> object_at v1 b = object_at v b).
    { intros b Hbk; rewrite Hc; destruct e; cbn in T; try now elim T; subst; cbn [instead becomes];
        (destruct (Nat.eqb_spec b k); [congruence | reflexivity]). }
    assert (G1 : asked w1 a = asked w a).
    { unfold ModelWorld.asked; destruct (Nat.eq_dec a i) as [-> | N]; [now rewrite Hw1, Ew | now rewrite F1]. }
    assert (G2 : asked v1 a = asked v a).
    { unfold ModelWorld.asked; destruct (Nat.eq_dec a k) as [-> | N]; [| now rewrite F2].
      rewrite <- E1, Ew.
      assert (Hv1 : object_at v1 k = object_at w1 i).
      { rewrite Hb, Hc; destruct e as [W fs | W fs a | i0 | i0 j | i0 x | i0 t | i0]; cbn in T; try now elim T.
        + subst i0; cbn [instead becomes]; rewrite !Nat.eqb_refl, <- E1, Ew; now rewrite (R s0 k Ew).
        + subst i0; cbn [instead becomes]; rewrite !Nat.eqb_refl, <- E1; reflexivity. }
      now rewrite Hv1, Hw1. }
    congruence.
Qed.
Lemma same_answers : forall es w w' v v' i k, execute es (Ok w) = Ok w' -> execute (map (instead L B k) es) (Ok v) = Ok v' ->
  (forall e, In e es -> OnlyTouches L B i e) ->
  object_at w i = object_at v k -> (forall s a, object_at w i = Some (Referring s a) -> asked w a = asked v a) ->
  forall f, answer w' i f = answer v' k f.
Proof.
  intros es w w' v v' i k H1 H2 N E1 R f; destruct (same_way es w w' v v' i k H1 H2 N E1 R) as [A C].
  unfold ModelWorld.answer; rewrite <- A; destruct (object_at w' i) as [[s | s a] |]; [reflexivity | | reflexivity].
  now rewrite (C s a eq_refl).
Qed.

Lemma only_touched : forall es w w' k, execute es (Ok w) = Ok w' -> (forall e, In e es -> OnlyTouches L B k e) ->
  (forall j, j <> k -> object_at w' j = object_at w j) /\
  (forall s a, object_at w k = Some (Referring s a) -> exists s', object_at w' k = Some (Referring s' a)).
Proof.
  induction es as [| e es IH]; intros w w' k H N; [cbn in H; injection H as <-; split; [reflexivity |]; intros s a Hs; now exists s |].
  apply execute_cons in H; destruct H as [w1 [He H]]; destruct (exec_becomes _ _ _ He) as [Hb _].
  destruct (IH w1 w' k H) as [I1 I2]; [intros d Hd; apply N; now right |].
  pose proof (N e (or_introl eq_refl)) as T; split.
  - intros j Hj; rewrite (I1 j Hj), Hb; destruct e; cbn in T; try now elim T; subst; cbn [becomes];
      (destruct (Nat.eqb_spec j k); [congruence | reflexivity]).
  - intros s a Hs; assert (W1 : exists s1, object_at w1 k = Some (Referring s1 a)).
    { rewrite Hb; destruct e as [W fs | W fs a0 | i0 | i0 j | i0 x | i0 t | i0]; cbn in T; try now elim T.
      - subst i0; cbn [becomes]; rewrite Nat.eqb_refl, Hs.
        cbn [ModelWorld.exec] in He; rewrite Hs in He; destruct (asked w a); [now eexists | discriminate].
      - subst i0; cbn [becomes]; rewrite Nat.eqb_refl, Hs; now eexists. }
    destruct W1 as [s1 W1]; exact (I2 s1 a W1).
Qed.
Lemma other_answers : forall es w w' i k, execute es (Ok w) = Ok w' -> (forall e, In e es -> OnlyTouches L B k e) -> i <> k ->
  object_at w i = object_at w k -> forall f, answer w' i f = answer w i f.
Proof.
  intros es w w' i k H N D E1 f; destruct (only_touched es w w' k H N) as [O1 O2].
  unfold ModelWorld.answer; rewrite (O1 i D); destruct (object_at w i) as [[s | s a] |] eqn:Ei; [reflexivity | | reflexivity].
  unfold ModelWorld.asked; destruct (Nat.eq_dec a k) as [-> | Na]; [| now rewrite O1].
  symmetry in E1; destruct (O2 s k E1) as [s' E2]; now rewrite E1, E2.
Qed.
Lemma instead_only : forall i k ps, (forall e, In e ps -> OnlyTouches L B k e) ->
  forall e, In e (map (instead L B i) ps) -> OnlyTouches L B i e.
Proof.
  intros i k ps N e He; rewrite in_map_iff in He; destruct He as [d [<- Hd]]; specialize (N d Hd); destruct d; cbn in *; try now elim N; reflexivity.
Qed.

Theorem both_go_on : forall w i k, i <> k -> object_at w i = object_at w k ->
  forall ps w1 w2, (forall e, In e ps -> OnlyTouches L B k e) ->
  execute ps (Ok w) = Ok w1 -> execute (map (instead L B i) ps) (Ok w) = Ok w2 ->
  forall f, answer w1 k f = answer w2 i f /\ answer w1 i f = answer w i f /\ answer w2 k f = answer w k f.
Proof.
  intros w i k D E1 ps w1 w2 N H1 H2 f; split; [| split].
  - apply (same_answers ps w w1 w w2 k i H1 H2 N (eq_sym E1)); reflexivity.
  - exact (other_answers ps w w1 i k H1 N D E1 f).
  - apply (other_answers _ w w2 k i H2 (instead_only i k ps N)); auto.
Qed.
Theorem copied : forall es i w, execute (es ++ [CopyOf i]) (Ok []) = Ok w -> let k := objects L B es in
  forall ps w1 w2, (forall e, In e ps -> OnlyTouches L B k e) ->
  execute ps (Ok w) = Ok w1 -> execute (map (instead L B i) ps) (Ok w) = Ok w2 ->
  forall f, answer w1 k f = answer w2 i f /\ answer w1 i f = answer w i f /\ answer w2 k f = answer w k f.
Proof.
  intros es i w H k; apply execute_snoc in H; destruct H as [w0 [H0 He]].
  destruct (story es w0 H0) as [Hl _]; destruct (exec_becomes _ _ _ He) as [Hb _]; cbn [becomes] in Hb.
  assert (Hi : (i < length w0)%nat).
  { cbn in He; unfold ModelWorld.object_at in He; apply nth_error_Some; destruct (nth_error w0 i); [discriminate | discriminate He]. }
  apply both_go_on; [unfold k; rewrite <- Hl; lia |].
  rewrite !Hb; unfold k; rewrite <- Hl, Nat.eqb_refl; destruct (Nat.eqb_spec i (length w0)); [lia | reflexivity].
Qed.
Theorem assigned : forall es i j w, i <> j -> execute (es ++ [AssignTo i j]) (Ok []) = Ok w ->
  forall ps w1 w2, (forall e, In e ps -> OnlyTouches L B i e) ->
  execute ps (Ok w) = Ok w1 -> execute (map (instead L B j) ps) (Ok w) = Ok w2 ->
  forall f, answer w1 i f = answer w2 j f /\ answer w1 j f = answer w j f /\ answer w2 i f = answer w i f.
Proof.
  intros es i j w D H; apply execute_snoc in H; destruct H as [w0 [H0 He]].
  destruct (exec_becomes _ _ _ He) as [Hb _]; cbn [becomes] in Hb.
  apply both_go_on; [congruence |].
  rewrite !Hb, Nat.eqb_refl; destruct (Nat.eqb_spec j i); [congruence | reflexivity].
Qed.

(** The external features of a referring set are those of the set it was made to refer to. *)
Hypothesis HL : LibLaws L.
Hypothesis HE : Enumeration L enum.
Theorem refers : forall es w k l a l2, execute es (Ok []) = Ok w ->
  life_of k (rev es) = Some l -> referent L B l = Some a -> life_of a (rev es) = Some l2 -> referent L B l2 = None ->
  forall t, In t (make_tuple L enum (weighted L B l) (features L B l)) -> ext (fst t) = true ->
  answer w k (ffeature L t) = answer w a (ffeature L t).
Proof.
  intros es w k l a l2 H Hk Ha Hl2 Hr t Ht Xt.
  destruct (story es w H) as [_ T]; pose proof (T k) as Tk; pose proof (T a) as Ta.
  rewrite Hk in Tk; rewrite Hl2 in Ta; cbn in Tk, Ta; rewrite Ha in Tk; rewrite Hr in Ta.
  destruct Tk as [q [Eq [IW IS]]]; unfold ModelWorld.answer, ModelWorld.asked; rewrite Eq, Ta; f_equal.
  rewrite <- IW in Ht; apply in_map_iff in Ht; destruct Ht as [b [Eb Ib]].
  destruct (IS b Ib) as [y Hy]; [now rewrite Eb |].
  match goal with |- read_with _ _ _ ?e _ _ = _ => set (env := e) end.
  unfold read_with, read; cbn.
  assert (F : find L E (bind L B ext env q) (ffeature L t) =
     Some (mkAcc L E (who L E b) (refs L E b) (tripped L E b) (inr (env (ffeature L (who L E b)))))).
  { rewrite <- Eb.
    assert (Ic : In (mkAcc L E (who L E b) (refs L E b) (tripped L E b) (inr (env (ffeature L (who L E b))))) (bind L B ext env q)).
    { unfold ModelExternal.bind; rewrite in_map_iff; exists b; split; [now rewrite Hy | assumption]. }
    exact (find_here L E HL (bind L B ext env q) _ ltac:(rewrite bind_who, IW; now apply built_single) Ic). }
  rewrite F; cbn; now rewrite Eb.
Qed.
End World.
