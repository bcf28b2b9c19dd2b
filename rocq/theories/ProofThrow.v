(** Proofs about interrupted pushes. *)
From Coq Require Import List ZArith Bool Lia Arith.
From Verif Require Import ModelFramework SpecFramework ModelThrow ProofFramework ProofFrameworkRef ProofFrameworkRun.
Import ListNotations.

Section Run.
Variable L : Lib.
Variable B : Behaviour L.
Variable X : Throwing L B.
Hypothesis HL : LibLaws L.
Variable consults : tag L -> list (tag L).
Variable on_push : tag L -> bool.
Hypothesis HB : ReadsOnly L B consults on_push.

Local Notation acc := (acc L B).
Local Notation accset := (accset L B).
Local Notation who := (who L B).
Local Notation refs := (refs L B).
Local Notation tripped := (tripped L B).
Local Notation state := (state L B).
Local Notation is_dropped := (is_dropped L B).
Local Notation feat a := (ffeature L (who a)).
Local Notation find := (find L B).
Local Notation read := (read L B).
Local Notation Single := (Single L).
Local Notation downward := (downward L consults).
Local Notation NeedF := (NeedF L).

(** ** Where a push stops *)
Lemma try_visit_stop x todo : forall done s', try_visit L B X x done todo = (s', true) ->
  exists a t b d t' r, todo = a ++ t :: b /\ s' = d ++ t' :: b /\ visit L B x done todo = d ++ r /\
    map who d = map who (done ++ a) /\ map refs d = map refs (done ++ a) /\ who t' = who t /\ refs t' = refs t /\ is_dropped t = false /\
    throws L B X (fst (who t)) (read (d ++ t :: b)) x (state t) = true /\
    state t' = torn L B X (fst (who t)) (read (d ++ t :: b)) x (state t).
Proof.
  induction todo as [|c todo IH]; intros done s' H; cbn [try_visit] in H; [discriminate H|].
  destruct (negb (is_dropped c) && throws L B X (fst (who c)) (read (done ++ c :: todo)) x (state c)) eqn:E.
  - injection H as <-. apply andb_true_iff in E as [E1 E2]. apply negb_true_iff in E1.
    set (t' := mkAcc L B (who c) (refs c) (tripped c) (torn L B X (fst (who c)) (read (done ++ c :: todo)) x (state c))).
    destruct (visit_app L B x (c :: todo) done) as (r & Er & _).
    exists [], c, todo, done, t', r. rewrite app_nil_r. repeat (split; [reflexivity || assumption|]). reflexivity.
  - apply IH in H as (a & t & b & d & t' & r & E1 & E2 & E3 & E4 & E5 & E6).
    exists (c :: a), t, b, d, t', r. split; [cbn; rewrite E1; reflexivity|]. split; [exact E2|]. split; [exact E3|].
    assert (W : who (operate L B (done ++ c :: todo) x c) = who c /\ refs (operate L B (done ++ c :: todo) x c) = refs c) by (unfold operate; now destruct (is_dropped c)).
    split; [rewrite E4, !map_app; cbn; rewrite (proj1 W), <- app_assoc; reflexivity|].
    split; [rewrite E5, !map_app; cbn; rewrite (proj2 W), <- app_assoc; reflexivity|]. exact E6.
Qed.
Lemma try_visit_through x todo : forall done s', try_visit L B X x done todo = (s', false) -> s' = visit L B x done todo.
Proof.
  induction todo as [|c todo IH]; intros done s' H; cbn [try_visit] in H; [injection H as <-; reflexivity|].
  destruct (negb (is_dropped c) && throws L B X (fst (who c)) (read (done ++ c :: todo)) x (state c)); [discriminate H|]. cbn [visit]. apply IH, H.
Qed.
Lemma try_push_shape s x : map who (fst (try_push L B X s x)) = map who s /\ map refs (fst (try_push L B X s x)) = map refs s.
Proof.
  destruct (try_push L B X s x) as [s' [|]] eqn:E; cbn [fst].
  - destruct (try_visit_stop x s [] s' E) as (a & t & b & d & t' & r & -> & -> & _ & E4 & E5 & E6 & E7 & _). cbn [app] in E4, E5.
    rewrite !map_app. cbn [map]. rewrite E4, E5, E6, E7. split; reflexivity.
  - rewrite (try_visit_through x s [] s' E). destruct (push_shape L B s x) as (H1 & H2 & _). split; assumption.
Qed.
Lemma try_history_who es : forall q, map who (fst (fold_left (try_handle L B X) es q)) = map who (fst q).
Proof.
  induction es as [|e es IH]; intros q; [reflexivity|]. cbn [fold_left]. rewrite IH. destruct e as [x|t]; cbn [try_handle fst]; [apply try_push_shape|apply (drop_shape L B (fst q) t)].
Qed.

(** ** Two sets of which part is in the same state *)
Definition alike (P : tag L -> Prop) (a1 a2 : acc) : Prop := who a1 = who a2 /\ refs a1 = refs a2 /\ (P (feat a1) -> state a1 = state a2).
Definition same (P : tag L -> Prop) (s1 s2 : accset) : Prop := Forall2 (alike P) s1 s2.

Lemma same_who P s1 s2 : same P s1 s2 -> map who s1 = map who s2.
Proof. induction 1 as [|a1 a2 s1 s2 [H _] _ IH]; [reflexivity|]. cbn. rewrite H, IH. reflexivity. Qed.
Lemma same_find P s1 s2 f : same P s1 s2 ->
  match find s1 f, find s2 f with Some a1, Some a2 => alike P a1 a2 | None, None => True | _, _ => False end.
Proof.
  induction 1 as [|a1 a2 s1 s2 H _ IH]; [exact I|]. unfold ModelFramework.find in *. cbn. rewrite <- (proj1 H).
  destruct (tag_eqb L f (feat a1)); [exact H|exact IH].
Qed.
Lemma same_read P s1 s2 : same P s1 s2 -> downward P (map who s1) -> forall f, P f -> read s1 f = read s2 f.
Proof.
  intros S D. unfold ModelFramework.read. intros f Hf. generalize (Datatypes.S (depth L f)) as n. intros n. revert f Hf. induction n as [|n IH]; intros f Hf; cbn;
    assert (F := same_find P s1 s2 f S); destruct (find s1 f) as [a1|] eqn:E1, (find s2 f) as [a2|] eqn:E2; try contradiction; try reflexivity.
  apply (find_in L B HL) in E1 as [I1 F1]. destruct F as (Ew & _ & Es). rewrite <- Ew, <- Es by (rewrite F1; exact Hf).
  apply (proj2 HB). intros d Hd. apply IH. apply (D (who a1)); [now apply in_map|now rewrite F1|exact Hd].
Qed.
Lemma same_dropped P a1 a2 : alike P a1 a2 -> is_dropped a1 = is_dropped a2.
Proof. intros (Ew & Er & _). unfold ModelFramework.is_dropped, droppable. rewrite Ew, Er. reflexivity. Qed.

Section Ordered.
Variable ts : list (ftag L).
Hypothesis HN : Single ts.
Hypothesis HC : Supplied L consults ts.
Hypothesis HO : PushOrdered L on_push ts.

Lemma same_push P s1 s2 x : map who s1 = ts -> downward P ts -> same P s1 s2 -> same P (push L B s1 x) (push L B s2 x).
Proof.
  intros W1 D S. assert (W2 : map who s2 = ts) by (rewrite <- (same_who P s1 s2 S); exact W1).
  assert (E1 : push L B s1 x = map (stepped L B x (push L B s1 x)) s1) by (apply (push_stepped L B HL consults on_push HB); rewrite W1; assumption).
  assert (E2 : push L B s2 x = map (stepped L B x (push L B s2 x)) s2) by (apply (push_stepped L B HL consults on_push HB); rewrite W2; assumption).
  assert (V1 : map who (push L B s1 x) = ts) by (rewrite (proj1 (push_shape L B s1 x)); exact W1).
  assert (V2 : map who (push L B s2 x) = ts) by (rewrite (proj1 (push_shape L B s2 x)); exact W2).
  set (F1 := push L B s1 x) in *. set (F2 := push L B s2 x) in *.
  assert (R : forall n f, (depth L f < n)%nat -> P f -> read F1 f = read F2 f).
  { induction n as [|n IH]; intros f Hn Hf; [lia|].
    assert (F := same_find P s1 s2 f S).
    destruct (find s1 f) as [a1|] eqn:G1, (find s2 f) as [a2|] eqn:G2; try contradiction.
    - pose proof (find_stepped L B HL s1 x f a1 ltac:(rewrite W1; exact HN) E1 G1) as K1.
      pose proof (find_stepped L B HL s2 x f a2 ltac:(rewrite W2; exact HN) E2 G2) as K2. fold F1 in K1. fold F2 in K2.
      apply (find_in L B HL) in G1 as [I1 Ef].
      assert (Q : forall d, In d (consults (fst (who a1))) -> read F1 (feature L d) = read F2 (feature L d)).
      { intros d Hd. apply IH.
        - assert (Hl := supplied_depth L HL consults ts (who a1) d HC ltac:(rewrite <- W1; now apply in_map) Hd). rewrite Ef in Hl. lia.
        - apply (D (who a1)); [rewrite <- W1; now apply in_map|now rewrite Ef|exact Hd]. }
      rewrite (read_result L B HL consults on_push HB F1 f _ ltac:(rewrite V1; exact HC) K1), (read_result L B HL consults on_push HB F2 f _ ltac:(rewrite V2; exact HC) K2), !stepped_who.
      assert (St : state (stepped L B x F1 a1) = state (stepped L B x F2 a2)).
      { unfold stepped. rewrite <- (same_dropped P a1 a2 F). destruct F as (Ew & Er & Es). specialize (Es ltac:(rewrite Ef; exact Hf)).
        destruct (is_dropped a1); [exact Es|]. cbn. rewrite <- Ew, <- Es. apply (proj1 HB). intros _. exact Q. }
      rewrite St, <- (proj1 F). apply (proj2 HB). exact Q.
    - assert (N1 : find F1 f = None /\ find F2 f = None).
      { assert (NF : forall s, find s f = None -> forall g, (forall a, who (g a) = who a) -> find (map g s) f = None).
        { clear. intros s Hs g Hg. induction s as [|a s IH]; [reflexivity|]. unfold ModelFramework.find in *. cbn in *. rewrite Hg. destruct (tag_eqb L f (feat a)); [discriminate Hs|apply IH, Hs]. }
        rewrite E1, E2. split; apply NF; try assumption; intros a; apply stepped_who. }
      unfold ModelFramework.read. cbn. rewrite (proj1 N1), (proj2 N1). reflexivity. }
  assert (RR : forall f, P f -> read F1 f = read F2 f) by (intros f; apply (R (Datatypes.S (depth L f))); lia).
  unfold same. rewrite E1, E2. assert (I1 : forall a, In a s1 -> In (who a) ts) by (intros a Ha; rewrite <- W1; now apply in_map).
  clearbody F1 F2. clear - S I1 RR D HB. induction S as [|a1 a2 s1 s2 H S IH]; [constructor|]. cbn [map]. constructor; [|apply IH; intros; apply I1; now right].
  assert (Dr := same_dropped P a1 a2 H). destruct H as (Ew & Er & Es). unfold alike. rewrite !stepped_who. split; [exact Ew|].
  unfold stepped. rewrite <- Dr. destruct (is_dropped a1); [split; [exact Er|exact Es]|]. cbn. split; [exact Er|]. intros Hp. rewrite <- Ew, <- (Es Hp).
  apply (proj1 HB). intros _ d Hd. apply RR. apply (D (who a1)); [apply I1; now left|exact Hp|exact Hd].
Qed.
Lemma same_pushes P xs : forall s1 s2, map who s1 = ts -> downward P ts -> same P s1 s2 -> same P (pushes L B s1 xs) (pushes L B s2 xs).
Proof.
  induction xs as [|x xs IH]; intros s1 s2 W D S; [exact S|]. unfold pushes in *. cbn [fold_left]. apply IH; [rewrite (proj1 (push_shape L B s1 x)); exact W|exact D|]. now apply same_push.
Qed.

(** ** What is left behind *)
Lemma pointwise (P : tag L -> Prop) : forall s1 s2 : accset, map who s1 = map who s2 -> map refs s1 = map refs s2 -> (forall a, In a s1 -> P (feat a) -> False) -> same P s1 s2.
Proof.
  induction s1 as [|a s1 IH]; intros [|b s2] W R N; try discriminate; [constructor|]. cbn in W, R. injection W as W1 W2. injection R as R1 R2. constructor.
  - split; [exact W1|]. split; [exact R1|]. intros Hp. exfalso. apply (N a); [now left|exact Hp].
  - apply IH; [exact W2|exact R2|]. intros c Hc. apply N. now right.
Qed.
Lemma same_refl (P : tag L -> Prop) s : same P s s.
Proof. induction s; constructor; [split; [reflexivity|split; reflexivity]|assumption]. Qed.

Lemma interrupted s x s' : map who s = ts -> try_push L B X s x = (s', true) ->
  exists a t b, ts = a ++ t :: b /\
  (exists r st, throws L B X (fst t) r x st = true) /\
  forall ys u, In u ts ->
    ((forall v, Needs L ts u v -> In v a) -> read (pushes L B s' ys) (ffeature L u) = read (pushes L B (push L B s x) ys) (ffeature L u)) /\
    ((forall v, Needs L ts u v -> In v b) -> read (pushes L B s' ys) (ffeature L u) = read (pushes L B s ys) (ffeature L u)) /\
    ((forall r y st, torn L B X (fst t) r y st = st) -> (forall v, Needs L ts u v -> In v (t :: b)) ->
       read (pushes L B s' ys) (ffeature L u) = read (pushes L B s ys) (ffeature L u)).
Proof.
  intros W H. destruct (try_visit_stop x s [] s' H) as (a & t & b & d & t' & r & Es & Es' & Ev & Ed & Er & Et & Eq & _ & Eth & Etorn). cbn [app] in Ed, Er.
  assert (Wts : ts = map who a ++ who t :: map who b) by (rewrite <- W, Es, map_app; reflexivity).
  exists (map who a), (who t), (map who b). split; [exact Wts|]. split; [exists (read (d ++ t :: b)), (state t); exact Eth|].
  intros ys u Hu. set (P := NeedF ts u). assert (D : downward P ts) by (apply needf_downward; assumption).
  assert (Pu : P (ffeature L u)) by (exists u; split; [now constructor|reflexivity]).
  assert (W' : map who s' = ts) by (assert (Q := proj1 (try_push_shape s x)); rewrite H in Q; cbn [fst] in Q; rewrite Q; exact W).
  assert (Fin : forall s2, same P s' s2 -> read (pushes L B s' ys) (ffeature L u) = read (pushes L B s2 ys) (ffeature L u)).
  { intros s2 S. apply (same_read P); [now apply same_pushes| |exact Pu].
    assert (Wp : forall xs s0, map who (pushes L B s0 xs) = map who s0).
    { induction xs as [|y xs IH]; intros s0; [reflexivity|]. unfold pushes in *. cbn [fold_left]. rewrite IH. apply push_shape. }
    rewrite Wp, W'. exact D. }
  (* a feature that is needed is needed where it stands *)
  assert (Pin : forall l1 l2 c, ts = l1 ++ l2 -> (forall v, Needs L ts u v -> In v l1) -> In (who c) l2 -> P (feat c) -> False).
  { intros l1 l2 c El Hn Hc [v [Hv Ev']]. assert (Iv := Hn v Hv). assert (v = who c).
    { apply (single_same L ts); [exact HN|rewrite El; apply in_or_app; now left|rewrite El; apply in_or_app; now right|exact Ev']. }
    subst v. assert (ND : NoDup ts) by (apply (NoDup_map_inv (ffeature L)); exact HN). rewrite El in ND. clear - ND Iv Hc. induction l1 as [|e l1 IH]; [destruct Iv|].
    cbn in ND. inversion ND as [|? ? N1 N2]; subst. destruct Iv as [->|Iv]; [apply N1, in_or_app; now right|now apply IH]. }
  assert (Pin' : forall l1 l2 c, ts = l1 ++ l2 -> (forall v, Needs L ts u v -> In v l2) -> In (who c) l1 -> P (feat c) -> False).
  { intros l1 l2 c El Hn Hc [v [Hv Ev']]. assert (Iv := Hn v Hv). assert (v = who c).
    { apply (single_same L ts); [exact HN|rewrite El; apply in_or_app; now right|rewrite El; apply in_or_app; now left|exact Ev']. }
    subst v. assert (ND : NoDup ts) by (apply (NoDup_map_inv (ffeature L)); exact HN). rewrite El in ND. clear - ND Iv Hc. induction l1 as [|e l1 IH]; [destruct Hc|].
    cbn in ND. inversion ND as [|? ? N1 N2]; subst. destruct Hc as [->|Hc]; [apply N1, in_or_app; now right|now apply IH]. }
  split; [|split].
  - intros Hn. apply Fin. assert (Ep : push L B s x = d ++ r) by exact Ev. destruct (push_shape L B s x) as (Pw & Pr & _). rewrite Ep in *. rewrite Es' in *.
    apply Forall2_app; [apply same_refl|].
    rewrite Es, !map_app in Pw, Pr. rewrite Ed in Pw. rewrite Er in Pr. apply app_inv_head in Pw. apply app_inv_head in Pr.
    apply pointwise.
    + rewrite Pw. cbn. rewrite Et. reflexivity.
    + rewrite Pr. cbn. rewrite Eq. reflexivity.
    + intros c Hc. apply (Pin (map who a) (who t :: map who b)); [exact Wts|exact Hn|]. destruct Hc as [<-|Hc]; [rewrite Et; now left|right; now apply in_map].
  - intros Hn. apply Fin. rewrite Es', Es.
    replace (d ++ t' :: b) with ((d ++ [t']) ++ b) by (rewrite <- app_assoc; reflexivity). replace (a ++ t :: b) with ((a ++ [t]) ++ b) by (rewrite <- app_assoc; reflexivity).
    apply Forall2_app; [|apply same_refl]. apply pointwise.
    + rewrite !map_app, Ed. cbn. rewrite Et. reflexivity.
    + rewrite !map_app, Er. cbn. rewrite Eq. reflexivity.
    + intros c Hc. apply (Pin' (map who a ++ [who t]) (map who b)); [rewrite <- app_assoc; exact Wts|exact Hn|].
      apply (in_map who) in Hc. rewrite map_app, Ed in Hc. cbn in Hc. rewrite Et in Hc. exact Hc.
  - intros Htorn Hn. apply Fin. rewrite Es', Es. apply Forall2_app.
    + apply pointwise; [exact Ed|exact Er|]. intros c Hc. apply (Pin' (map who a) (who t :: map who b)); [exact Wts|exact Hn|]. rewrite <- Ed. now apply in_map.
    + constructor; [|apply same_refl]. split; [exact Et|]. split; [exact Eq|]. intros _. rewrite Etorn. apply Htorn.
Qed.
End Ordered.
End Run.
