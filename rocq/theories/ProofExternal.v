(** Proofs about external weights, values and references (C45). *)

From Coq Require Import List ZArith Bool Permutation Lia Arith.
From Verif Require Import ModelFramework SpecFramework ProofFramework ProofFrameworkRef ProofFrameworkRun
  ModelExternal SpecExternal.
Import ListNotations.

Section Ext.
Variable L : Lib.
Variable B : Behaviour L.
Hypothesis HL : LibLaws L.
Variable consults : tag L -> list (tag L).
Variable on_push : tag L -> bool.
Hypothesis HB : ReadsOnly L B consults on_push.
Variable ext : tag L -> bool.

Local Notation E := (ExtB L B ext).
Local Notation who := (who L E).
Local Notation state := (state L E).
Local Notation bind := (bind L B ext).

Lemma ext_reads : ReadsOnly L E consults on_push.
Proof.
  destruct HB as [H1 H2]; split.
  - intros t r1 r2 x [a | y] H; cbn; [f_equal; now apply H1 | reflexivity].
  - intros t r1 r2 [a | y] H; cbn; [now apply H2 | reflexivity].
Qed.

(** The internal set as a set of the same kind. *)
Definition inj1 (a : acc L B) : acc L E :=
  mkAcc L E (ModelFramework.who L B a) (refs L B a) (tripped L B a) (inl (ModelFramework.state L B a)).
Definition inj (s : accset L B) : accset L E := map inj1 s.

Lemma inj_find : forall s f, find L E (inj s) f = option_map inj1 (find L B s f).
Proof.
  induction s as [| a s IH]; intros f; cbn; [reflexivity |].
  unfold find in *; cbn; destruct (tag_eqb L f (ffeature L (ModelFramework.who L B a))); [reflexivity | apply IH].
Qed.

Lemma inj_extract : forall n s f, extract L E n (inj s) f = extract L B n s f.
Proof.
  induction n as [| n IH]; intros s f; cbn; rewrite inj_find; destruct (find L B s f); cbn; try reflexivity.
  apply (proj2 HB); intros d _; apply IH.
Qed.

Lemma inj_read : forall s f, read L E (inj s) f = read L B s f.
Proof. intros; apply inj_extract. Qed.

Lemma inj_push : forall s x, push L E (inj s) x = inj (push L B s x).
Proof.
  intros s x; unfold push.
  assert (H : forall todo done, visit L E x (inj done) (inj todo) = inj (visit L B x done todo)).
  { induction todo as [| a todo IH]; intros done; [reflexivity |].
    cbn [inj map visit].
    replace (inj done ++ [operate L E (inj done ++ inj1 a :: map inj1 todo) x (inj1 a)])
      with (inj (done ++ [operate L B (done ++ a :: todo) x a])).
    { apply IH. }
    unfold inj at 1; rewrite map_app; cbn [map]; f_equal; f_equal.
    unfold operate, is_dropped, droppable; cbn.
    destruct (snd (ModelFramework.who L B a) && (refs L B a =? 0)%Z); [reflexivity |].
    unfold inj1; cbn; f_equal; f_equal.
    apply (proj1 HB); intros _ d _.
    symmetry; rewrite <- (inj_read (done ++ a :: todo)); unfold inj; now rewrite map_app. }
  apply (H s []).
Qed.

Lemma inj_pushes : forall xs s, pushes L E (inj s) xs = inj (pushes L B s xs).
Proof.
  induction xs as [| x xs IH]; intros s; [reflexivity |].
  unfold pushes in *; cbn [fold_left]; rewrite inj_push; apply IH.
Qed.

(** An external set beside the internal one. *)
Definition alike (a1 a2 : acc L E) : Prop :=
  who a1 = who a2 /\ refs L E a1 = refs L E a2 /\
  if ext (fst (who a1)) then exists y, state a1 = inr y
  else state a1 = state a2 /\ exists c, state a1 = inl c.

Lemma alike_bind : forall env e s, Forall2 alike e s -> Forall2 alike (bind env e) s.
Proof.
  intros env e s H; induction H as [| a1 a2 e s (H1 & H2 & H3) H IH]; [constructor |].
  constructor; [| exact IH]; unfold alike.
  destruct (ext (fst (who a1))) eqn:X.
  - destruct H3 as [y Hy]; rewrite Hy; cbn; rewrite X.
    split; [assumption |]; split; [assumption |]; now exists (env (ffeature L (who a1))).
  - destruct H3 as [H3 [c Hc]]; rewrite Hc; rewrite X.
    split; [assumption |]; split; [assumption |]; split; [assumption | now exists c].
Qed.

Lemma alike_who : forall e s, Forall2 alike e s -> map who e = map who s.
Proof. intros e s H; induction H as [| a1 a2 e s [H1 _] H IH]; cbn; [reflexivity | now rewrite H1, IH]. Qed.

Lemma bind_who : forall env e, map who (bind env e) = map who e.
Proof.
  intros env e; unfold ModelExternal.bind; rewrite map_map; apply map_ext; intros a; now destruct (state a).
Qed.

Lemma bind_state : forall env e s a, Forall2 alike e s -> In a (bind env e) -> ext (fst (who a)) = true ->
  state a = inr (env (ffeature L (who a))).
Proof.
  intros env e s a H; induction H as [| a1 a2 e s (H1 & H2 & H3) H IH]; intros Ha X; [destruct Ha |].
  cbn in Ha; destruct Ha as [Ha | Ha]; [| now apply IH].
  subst a; destruct (state a1) as [c | y] eqn:E1.
  - rewrite X in H3; destruct H3 as [y Hy]; congruence.
  - reflexivity.
Qed.

Lemma alike_find : forall e s f a2, Forall2 alike e s -> find L E s f = Some a2 ->
  exists a1, find L E e f = Some a1 /\ alike a1 a2.
Proof.
  intros e s f a2 H; induction H as [| a1 b e s A H IH]; [discriminate |].
  unfold find; cbn; rewrite (proj1 A); destruct (tag_eqb L f (ffeature L (who b))).
  - injection 1 as <-; now exists a1.
  - exact IH.
Qed.

Lemma alike_in : forall e s a2, Forall2 alike e s -> In a2 s -> exists a1, In a1 e /\ alike a1 a2.
Proof.
  intros e s a2 H; induction H as [| a1 b e s A H IH]; [intros [] |].
  intros [<- | I]; [exists a1; split; [now left | assumption] |].
  destruct (IH I) as [a [I' A']]; exists a; split; [now right | assumption].
Qed.

Local Notation Single := (Single L).

(** What is safe to read: every external accumulator below finds in [env] what the internal
    one answers. *)
Definition safe (env : tag L -> Result L B) (s : accset L E) (t : ftag L) : Prop :=
  forall b, Needs L (map who s) t b -> ext (fst b) = true -> env (ffeature L b) = read L E s (ffeature L b).

Lemma ext_read : forall env e s, Forall2 alike e s -> Single (map who s) -> Supplied L consults (map who s) ->
  forall a, In a s -> safe env s (who a) ->
  read L E (bind env e) (ffeature L (who a)) = read L E s (ffeature L (who a)).
Proof.
  intros env e s A N C.
  pose proof (alike_bind env e s A) as A'.
  assert (W' : map who (bind env e) = map who s) by now apply alike_who.
  assert (H : forall n a, (depth L (ffeature L (who a)) < n)%nat -> In a s -> safe env s (who a) ->
    read L E (bind env e) (ffeature L (who a)) = read L E s (ffeature L (who a))).
  { induction n as [| n IH]; intros a Hn Ia Sa; [lia |].
    pose proof (find_here L E HL s a N Ia) as F2.
    destruct (alike_find _ _ _ _ A' F2) as [a1 [F1 (W1 & R1 & X1)]].
    assert (C' : Supplied L consults (map who (bind env e))) by now rewrite W'.
    destruct (ext (fst (who a1))) eqn:X.
    - rewrite (read_result L E HL consults on_push ext_reads _ _ _ C' F1).
      apply find_in in F1; [| assumption]; destruct F1 as [I1 F1].
      rewrite (bind_state env e s a1 A I1 X); cbn; rewrite F1.
      apply Sa; [constructor; now apply in_map | now rewrite <- W1].
    - rewrite (read_result L E HL consults on_push ext_reads _ _ _ C' F1).
      rewrite (read_result L E HL consults on_push ext_reads _ _ _ C F2).
      destruct X1 as [X1 _]; rewrite X1, W1.
      apply (proj2 ext_reads); intros d Hd.
      destruct (C (who a) d (in_map who s a Ia) Hd) as [u [Hu [Hne Eu]]].
      pose proof (needs_in L _ _ _ Hu) as Iu; apply in_map_iff in Iu; destruct Iu as [b [Eb Ib]].
      rewrite <- Eu, <- Eb; apply IH.
      + apply (needs_depth L HL) in Hu; rewrite Eb; destruct Hu; [contradiction | lia].
      + assumption.
      + intros c Hc; rewrite Eb in Hc; apply Sa; now apply (needs_more L _ _ u). }
  intros a Ia Sa; now apply (H (S (depth L (ffeature L (who a))))); [lia | |].
Qed.

Lemma forall2_map : forall (A : Type) (P : A -> A -> Prop) (f g : A -> A) l1 l2,
  Forall2 (fun a b => P a b) l1 l2 -> (forall a b, In a l1 -> In b l2 -> P a b -> P (f a) (g b)) ->
  Forall2 P (map f l1) (map g l2).
Proof.
  intros A P f g l1 l2 H; induction H as [| a b l1 l2 H0 H IH]; intros K; cbn; constructor.
  - apply K; [now left | now left | assumption].
  - apply IH; intros c d Ic Id; apply K; now right.
Qed.

Lemma ext_push : forall env e s x, Forall2 alike e s ->
  Single (map who s) -> Supplied L consults (map who s) -> PushOrdered L on_push (map who s) ->
  (forall b, UsedOnPush L ext on_push (map who s) b ->
     env (ffeature L b) = read L E (push L E s x) (ffeature L b)) ->
  Forall2 alike (push L E (bind env e) x) (push L E s x).
Proof.
  intros env e s x A N C O Henv.
  pose proof (alike_bind env e s A) as A'.
  assert (W' : map who (bind env e) = map who s) by now apply alike_who.
  assert (N' : Single (map who (bind env e))) by now rewrite W'.
  assert (C' : Supplied L consults (map who (bind env e))) by now rewrite W'.
  assert (O' : PushOrdered L on_push (map who (bind env e))) by now rewrite W'.
  pose proof (push_stepped L E HL consults on_push ext_reads s x N C O) as E2.
  pose proof (push_stepped L E HL consults on_push ext_reads (bind env e) x N' C' O') as E1.
  set (F2 := push L E s x) in *; set (F1 := push L E (bind env e) x) in *.
  assert (WF2 : map who F2 = map who s) by (unfold F2; apply push_shape).
  assert (WF1 : map who F1 = map who s) by (rewrite <- W'; unfold F1; apply push_shape).
  assert (CF1 : Supplied L consults (map who F1)) by now rewrite WF1.
  assert (CF2 : Supplied L consults (map who F2)) by now rewrite WF2.
  assert (H : forall n a1 a2, (depth L (ffeature L (who a2)) < n)%nat -> In a1 (bind env e) -> In a2 s ->
    alike a1 a2 ->
    alike (stepped L E x F1 a1) (stepped L E x F2 a2) /\
    ((forall b, Needs L (map who s) (who a2) b -> ext (fst b) = true -> env (ffeature L b) = read L E F2 (ffeature L b)) ->
     read L E F1 (ffeature L (who a2)) = read L E F2 (ffeature L (who a2)))).
  { induction n as [| n IH]; intros a1 a2 Hn I1 I2 A12; [lia |].
    destruct A12 as (W1 & R1 & X1).
    assert (D12 : is_dropped L E a1 = is_dropped L E a2)
      by (unfold is_dropped, droppable; now rewrite W1, R1).
    assert (K : forall d, In d (consults (fst (who a2))) ->
      exists u b1 b2, Needs L (map who s) (who a2) u /\ u <> who a2 /\ ffeature L u = feature L d /\ who b2 = u /\
        In b1 (bind env e) /\ In b2 s /\ alike b1 b2 /\ (depth L (ffeature L (who b2)) < n)%nat).
    { intros d Hd; destruct (C (who a2) d (in_map who s a2 I2) Hd) as [u [Hu [Hne Eu]]].
      pose proof (needs_in L _ _ _ Hu) as Iu; apply in_map_iff in Iu; destruct Iu as [b2 [Eb Ib]].
      destruct (alike_in _ _ b2 A' Ib) as [b1 [Ib1 Ab]].
      exists u, b1, b2; repeat (split; [assumption |]).
      apply (needs_depth L HL) in Hu; rewrite Eb; destruct Hu; [contradiction | lia]. }
    assert (AL : alike (stepped L E x F1 a1) (stepped L E x F2 a2)).
    { unfold alike; rewrite !stepped_who; split; [assumption |].
      unfold stepped; rewrite D12; destruct (is_dropped L E a2); cbn.
      - split; assumption.
      - split; [assumption |].
        destruct (ext (fst (who a1))) eqn:X.
        + destruct X1 as [y Hy]; rewrite Hy; now exists y.
        + destruct X1 as [X1 [c Hc]]; rewrite <- X1, Hc, <- W1; cbn; split; [| now eexists].
          f_equal; apply (proj1 HB); intros Hp d Hd.
          rewrite W1 in Hd, Hp.
          destruct (K d Hd) as (u & b1 & b2 & Hu & Hne & Eu & Eb & J1 & J2 & Ab & Db).
          rewrite <- Eu, <- Eb; apply (IH b1 b2); try assumption.
          intros b Hb Xb; apply Henv; split; [assumption |].
          exists (who a2); split; [now apply in_map |]; split; [assumption |].
          rewrite Eb in Hb; split; [now apply (needs_more L _ _ u) |].
          intros ->; apply (needs_depth L HL) in Hb; apply (needs_depth L HL) in Hu.
          destruct Hb as [Hb | Hb]; [now apply Hne |]; destruct Hu as [Hu | Hu]; [contradiction | lia]. }
    split; [exact AL |]; intros Sa.
    assert (G1 : find L E F1 (ffeature L (who a1)) = Some (stepped L E x F1 a1)).
    { apply find_stepped; try assumption; now apply find_here. }
    assert (G2 : find L E F2 (ffeature L (who a2)) = Some (stepped L E x F2 a2)).
    { apply find_stepped; try assumption; now apply find_here. }
    rewrite <- W1 at 1.
    rewrite (read_result L E HL consults on_push ext_reads _ _ _ CF1 G1).
    destruct AL as (AW & _ & AX); rewrite stepped_who in AX; rewrite stepped_who.
    destruct (ext (fst (who a1))) eqn:X.
    - assert (S1 : state (stepped L E x F1 a1) = inr (env (ffeature L (who a1)))).
      { unfold stepped; rewrite (bind_state env e s a1 A I1 X).
        destruct (is_dropped L E a1); [now apply (bind_state env e s) | reflexivity]. }
      rewrite S1; cbn; rewrite W1; apply Sa; [constructor; now apply in_map | now rewrite <- W1].
    - rewrite (read_result L E HL consults on_push ext_reads _ _ _ CF2 G2), stepped_who.
      destruct AX as [AX _]; rewrite AX, W1.
      apply (proj2 ext_reads); intros d Hd.
      destruct (K d Hd) as (u & b1 & b2 & Hu & Hne & Eu & Eb & J1 & J2 & Ab & Db).
      rewrite <- Eu, <- Eb; apply (IH b1 b2); try assumption.
      intros b Hb Xb; apply Sa; [| assumption]; rewrite Eb in Hb; now apply (needs_more L _ _ u). }
  rewrite E1, E2; fold F1 F2.
  apply forall2_map; [exact A' |].
  intros a1 a2 I1 I2 A12; now apply (H (S (depth L (ffeature L (who a2)))) a1 a2); [lia | | |].
Qed.

Lemma pushes_who : forall xs s, map who (pushes L E s xs) = map who s.
Proof.
  induction xs as [| x xs IH]; intros s; [reflexivity |].
  unfold pushes in *; cbn [fold_left]; rewrite IH; apply push_shape.
Qed.

Lemma ext_pushes : forall cs e s, Forall2 alike e s ->
  Single (map who s) -> Supplied L consults (map who s) -> PushOrdered L on_push (map who s) ->
  (forall ys x env zs, cs = ys ++ (x, env) :: zs -> forall b, UsedOnPush L ext on_push (map who s) b ->
     env (ffeature L b) = read L E (pushes L E s (map fst ys ++ [x])) (ffeature L b)) ->
  Forall2 alike (pushes_with L B ext e cs) (pushes L E s (map fst cs)).
Proof.
  intros cs e s A N C O; induction cs as [| [x env] cs IH] using rev_ind; intros H; [exact A |].
  unfold pushes_with; rewrite fold_left_app; cbn [fold_left]; fold (pushes_with L B ext e cs).
  rewrite map_app; unfold pushes; rewrite fold_left_app; cbn [map fold_left fst]; fold (pushes L E s (map fst cs)).
  unfold push_with; cbn [fst snd].
  assert (Wp : map who (pushes L E s (map fst cs)) = map who s) by apply pushes_who.
  apply ext_push; rewrite ?Wp; try assumption.
  - apply IH; intros ys x' env' zs Ec b Hb; apply (H ys x' env' (zs ++ [(x, env)])); [| assumption].
    rewrite Ec, <- app_assoc; reflexivity.
  - intros b Hb; rewrite (H cs x env [] eq_refl b Hb).
    unfold pushes; rewrite fold_left_app; reflexivity.
Qed.

(** ** Constructed sets *)
Section Built.
Variable enum : fmap L -> fmap L.
Hypothesis Henum : Enumeration L enum.
Variable W : bool.
Variable fs : list (request L).
Let ts := make_tuple L enum W fs.

Lemma construct_alike : Forall2 alike (construct L E enum W fs) (inj (construct L B enum W fs)).
Proof.
  rewrite !construct_raise; fold ts; unfold inj, raise.
  change (total_paths L enum W fs) with (total_paths L enum W fs).
  rewrite !map_map; generalize ts as us; induction us as [| t us IH]; [constructor |].
  cbn [map]; constructor; [| exact IH].
  unfold alike; unfold droppable; cbn.
  destruct (snd t); cbn; (split; [reflexivity |]); (split; [reflexivity |]);
    destruct (ext (fst t)); try (now eexists); split; try reflexivity; now eexists.
Qed.

Hypothesis C : Supplied L consults ts.
Hypothesis O : PushOrdered L on_push ts.

Theorem external_answers : forall cs env,
  let s := fun xs => pushes L B (construct L B enum W fs) xs in
  (forall ys x env' zs, cs = ys ++ (x, env') :: zs -> forall b, UsedOnPush L ext on_push ts b ->
     env' (ffeature L b) = read L B (s (map fst ys ++ [x])) (ffeature L b)) ->
  (forall b, In b ts -> ext (fst b) = true ->
     env (ffeature L b) = read L B (s (map fst cs)) (ffeature L b)) ->
  forall t, In t ts ->
  read_with L B ext env (pushes_with L B ext (construct L E enum W fs) cs) (ffeature L t)
  = read L B (s (map fst cs)) (ffeature L t).
Proof.
  intros cs env s H1 H2 t Ht.
  assert (Wi : map who (inj (construct L B enum W fs)) = ts).
  { unfold inj; rewrite map_map; cbn; apply construct_who. }
  assert (N : Single ts) by now apply built_single.
  assert (A : Forall2 alike (pushes_with L B ext (construct L E enum W fs) cs)
               (pushes L E (inj (construct L B enum W fs)) (map fst cs))).
  { apply ext_pushes; rewrite ?Wi; try assumption; [apply construct_alike |].
    intros ys x env' zs Ec b Hb; rewrite inj_pushes, inj_read; now apply (H1 ys x env' zs). }
  assert (Wp : map who (pushes L E (inj (construct L B enum W fs)) (map fst cs)) = ts)
    by (rewrite pushes_who; exact Wi).
  rewrite <- Wp in Ht; apply in_map_iff in Ht; destruct Ht as [a [Ea Ia]].
  unfold read_with; rewrite <- Ea, (ext_read env _ _ A).
  - rewrite inj_pushes, inj_read; reflexivity.
  - now rewrite Wp.
  - now rewrite Wp.
  - assumption.
  - intros b Hb Xb; rewrite inj_pushes, inj_read; apply H2; [| assumption].
    rewrite <- Wp; now apply needs_in in Hb.
Qed.

(** The external features themselves: exactly what the other set says, whatever was pushed. *)
Theorem external_reports : forall cs env t, In t ts -> ext (fst t) = true ->
  read_with L B ext env (pushes_with L B ext (construct L E enum W fs) cs) (ffeature L t) = env (ffeature L t).
Proof.
  intros cs env t Ht Xt.
  assert (Wx : forall cs, map who (pushes_with L B ext (construct L E enum W fs) cs) = ts /\
     forall a, In a (pushes_with L B ext (construct L E enum W fs) cs) -> ext (fst (who a)) = true -> exists y, state a = inr y).
  { clear cs; induction cs as [| [x env'] cs [IW IS]] using rev_ind.
    - split; [apply construct_who |]; intros a Ha Xa; cbn in Ha.
      rewrite (built_state L E enum W fs a Ha); cbn; rewrite Xa; now eexists.
    - unfold pushes_with; rewrite fold_left_app; cbn [fold_left]; fold (pushes_with L B ext (construct L E enum W fs) cs).
      unfold push_with; cbn [fst snd].
      set (q := pushes_with L B ext (construct L E enum W fs) cs) in *.
      split; [rewrite (proj1 (push_shape L E (bind env' q) x)), bind_who; exact IW |].
      intros a Ha Xa.
      apply In_nth_error in Ha; destruct Ha as [i Hi].
      destruct (nth_error (bind env' q) i) as [b |] eqn:Eb.
      + destruct (push_nth L E (bind env' q) x i b Eb) as [c Hc]; rewrite Hi in Hc; injection Hc as ->.
        assert (Ib : In b (bind env' q)) by (eapply nth_error_In; exact Eb).
        assert (Xb : ext (fst (who b)) = true)
          by (revert Xa; unfold operate; destruct (is_dropped L E b); exact (fun h => h)).
        assert (Sb : exists y, state b = inr y).
        { unfold ModelExternal.bind in Ib; rewrite in_map_iff in Ib; destruct Ib as [b0 [E0 I0]].
          subst b; destruct (state b0) as [c0 | y0] eqn:S0.
          - destruct (IS b0 I0 Xb) as [y Hy]; congruence.
          - now eexists. }
        destruct Sb as [y Hy]; unfold operate; destruct (is_dropped L E b); [now exists y |].
        cbn; rewrite Hy; now exists y.
      + apply nth_error_None in Eb.
        assert (Hl : (i < length (push L E (bind env' q) x))%nat) by (apply nth_error_Some; congruence).
        assert (length (push L E (bind env' q) x) = length (bind env' q)).
        { rewrite <- (map_length who), (proj1 (push_shape L E (bind env' q) x)); apply map_length. }
        lia. }
  destruct (Wx cs) as [IW IS].
  set (q := pushes_with L B ext (construct L E enum W fs) cs) in *.
  rewrite <- IW in Ht; apply in_map_iff in Ht; destruct Ht as [a [Ea Ia]].
  destruct (IS a Ia) as [y Hy]; [now rewrite Ea |].
  unfold read_with, read; cbn.
  assert (F : find L E (bind env q) (ffeature L t) =
     Some (mkAcc L E (who a) (refs L E a) (tripped L E a) (inr (env (ffeature L (who a)))))).
  { rewrite <- Ea.
    assert (Ib : In (mkAcc L E (who a) (refs L E a) (tripped L E a) (inr (env (ffeature L (who a))))) (bind env q)).
    { unfold ModelExternal.bind; rewrite in_map_iff; exists a; split; [now rewrite Hy | assumption]. }
    exact (find_here L E HL (bind env q) _ ltac:(rewrite bind_who, IW; now apply built_single) Ib). }
  rewrite F; cbn; now rewrite Ea.
Qed.

End Built.
End Ext.

(** ** Values and references *)
Lemma value_constant : forall (V X : Type) (m : memory V) (a : nat) (es : list (happening V X)),
  value_result V (fold_left (value_op V X) es (value_init V m a)) = m a.
Proof.
  intros V X m a es; change (m a) with (value_init V m a); generalize (value_init V m a) as v.
  induction es as [| [b v | x] es IH]; intros v0; cbn; [reflexivity | apply IH | apply IH].
Qed.

Lemma reference_follows : forall (V X : Type) (m : memory V) (a : nat) (es : list (happening V X)),
  reference_result V (fold_left (happens V X) es m) (fold_left (reference_op V X) es (reference_init V m a))
  = current (m a) a es.
Proof.
  intros V X m a es.
  assert (H : forall es s, fold_left (reference_op V X) es s = s).
  { clear; induction es as [| [b v | x] es IH]; intros s; cbn; [reflexivity | apply IH | apply IH]. }
  rewrite H; unfold reference_result, reference_init; clear H.
  revert m; induction es as [| [b v | x] es IH]; intros m; cbn; [reflexivity | | apply IH].
  rewrite IH; unfold store; now destruct (Nat.eqb a b).
Qed.
