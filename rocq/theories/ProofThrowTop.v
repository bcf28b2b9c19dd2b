(** Interrupted pushes in the library. *)
From Coq Require Import List ZArith Bool Lia Arith QArith Qcanon.
From Verif Require Import Num NumFacts SpecStats ModelFramework SpecFramework ModelThrow ModelLibrary ModelSets SpecSets ModelRollingSets SpecRollingSets
  ProofFramework ProofFrameworkRef ProofFrameworkRun ProofLibrary ProofSets ProofSetsTop ProofRollingSets ProofFrameworkEx ProofThrow.
Import ListNotations.
Local Open Scope nat_scope.

Lemma not_interrupted : forall L B (X : Throwing L B) s x s', try_push L B X s x = (s', false) -> s' = push L B s x.
Proof. intros L B X s x s' H. exact (try_visit_through L B X x s [] s' H). Qed.

Lemma generic_interrupted : forall L, LibLaws L -> forall (B : Behaviour L) consults on_push, ReadsOnly L B consults on_push ->
  forall (X : Throwing L B) enum, Enumeration L enum -> forall W fs, let ts := make_tuple L enum W fs in
  Supplied L consults ts -> PushOrdered L on_push ts ->
  forall es x s', let s := fst (try_history L B X (construct L B enum W fs) es) in
  try_push L B X s x = (s', true) ->
  exists a t b, ts = a ++ t :: b /\
  (exists r st, throws L B X (fst t) r x st = true) /\
  forall ys u, In u ts ->
    ((forall v, Needs L ts u v -> In v a) -> read L B (pushes L B s' ys) (ffeature L u) = read L B (pushes L B (push L B s x) ys) (ffeature L u)) /\
    ((forall v, Needs L ts u v -> In v b) -> read L B (pushes L B s' ys) (ffeature L u) = read L B (pushes L B s ys) (ffeature L u)) /\
    ((forall r y st, torn L B X (fst t) r y st = st) -> (forall v, Needs L ts u v -> In v (t :: b)) ->
       read L B (pushes L B s' ys) (ffeature L u) = read L B (pushes L B s ys) (ffeature L u)).
Proof.
  intros L HL B consults on_push HB X enum He W fs ts HC HO es x s' s H.
  apply (interrupted L B X HL consults on_push HB ts (tuple_once L HL enum He W fs) HC HO s x s'); [|exact H].
  unfold s, try_history. rewrite try_history_who. apply construct_who.
Qed.
Lemma library_interrupted : forall (B : Behaviour Library), ReadsOnly Library B lconsults lon_push ->
  forall (X : Throwing Library B) enum, Enumeration Library enum -> forall W fs, let ts := make_tuple Library enum W fs in
  Compiles W ts -> NoRollingClash ts ->
  forall es x s', let s := fst (try_history Library B X (construct Library B enum W fs) es) in
  try_push Library B X s x = (s', true) ->
  exists a t b, ts = a ++ t :: b /\
  (exists r st, throws Library B X (fst t) r x st = true) /\
  forall ys u, In u ts ->
    ((forall v, Needs Library ts u v -> In v a) ->
       read Library B (pushes Library B s' ys) (lfeature (fst u)) = read Library B (pushes Library B (push Library B s x) ys) (lfeature (fst u))) /\
    ((forall v, Needs Library ts u v -> In v b) ->
       read Library B (pushes Library B s' ys) (lfeature (fst u)) = read Library B (pushes Library B s ys) (lfeature (fst u))) /\
    ((forall r y st, torn Library B X (fst t) r y st = st) -> (forall v, Needs Library ts u v -> In v (t :: b)) ->
       read Library B (pushes Library B s' ys) (lfeature (fst u)) = read Library B (pushes Library B s ys) (lfeature (fst u))).
Proof.
  intros B HB X enum He W fs ts HC HR es x s' s H.
  apply (generic_interrupted Library library_laws B lconsults lon_push HB X enum He W fs); [now apply library_supplied|now apply library_push_ordered|exact H].
Qed.

(** ** Counting *)
Section Counting.
Variable K : Num.
Variable sqrt : car K -> car K.
Variable R : Rest K.
Local Notation B := (BasicSets K sqrt R).
Variable X : Throwing Library B.
Hypothesis HX : forall r y st, throws Library B X t_count r y st = false.

Lemma operate_count (c : accset Library B) x a n : who Library B a = (t_count, false) -> state Library B a = CNat n ->
  who Library B (operate Library B c x a) = (t_count, false) /\ state Library B (operate Library B c x a) = CNat (S n).
Proof.
  intros Wa Sa. unfold operate, is_dropped, droppable. rewrite Wa. cbn. split; [reflexivity|]. rewrite Sa. reflexivity.
Qed.
Lemma count_push s x i a n : nth_error s i = Some a -> who Library B a = (t_count, false) -> state Library B a = CNat n ->
  exists a', nth_error (fst (try_push Library B X s x)) i = Some a' /\ who Library B a' = (t_count, false) /\
    exists m, state Library B a' = CNat m /\ n <= m <= S n /\ (snd (try_push Library B X s x) = false -> m = S n).
Proof.
  intros Ha Wa Sa. destruct (try_push Library B X s x) as [s' [|]] eqn:E; cbn [fst snd].
  - destruct (try_visit_stop Library B X x s [] s' E) as (l & t & b & d & t' & r & Es & Es' & Ev & Ed & _ & Et & _ & _ & Eth & _). cbn [app] in Ed.
    assert (Ld : length d = length l) by (rewrite <- (map_length (who Library B) d), Ed, map_length; reflexivity).
    destruct (lt_eq_lt_dec i (length l)) as [[Hi|Hi]|Hi].
    + destruct (push_nth Library B s x i a Ha) as [c Hc]. change (push Library B s x) with (visit Library B x [] s) in Hc. rewrite Ev, nth_error_app1 in Hc by lia.
      exists (operate Library B c x a). rewrite Es', nth_error_app1 by lia. split; [exact Hc|]. destruct (operate_count c x a n Wa Sa) as [H1 H2]. split; [exact H1|].
      exists (S n). split; [exact H2|]. split; [lia|reflexivity].
    + exfalso. subst i. rewrite Es, nth_error_app2, Nat.sub_diag in Ha by lia. injection Ha as ->. rewrite Wa in Eth. cbn [fst] in Eth. rewrite HX in Eth. discriminate Eth.
    + exists a. split; [|split; [exact Wa|exists n; split; [exact Sa|split; [lia|discriminate]]]].
      rewrite Es, nth_error_app2 in Ha by lia. rewrite Es', nth_error_app2 by lia. rewrite Ld. destruct (i - length l) eqn:Q; [lia|exact Ha].
  - rewrite (not_interrupted _ _ _ _ _ _ E). destruct (push_nth Library B s x i a Ha) as [c Hc]. exists (operate Library B c x a). split; [exact Hc|].
    destruct (operate_count c x a n Wa Sa) as [H1 H2]. split; [exact H1|]. exists (S n). split; [exact H2|]. split; [lia|reflexivity].
Qed.
Lemma counted : forall enum, Enumeration Library enum -> forall W fs, In (t_count, false) (make_tuple Library enum W fs) ->
  forall es, let q := try_history Library B X (construct Library B enum W fs) es in
  exists n, read Library B (fst q) t_count = VNat n /\ length (filter negb (snd q)) <= n <= length (snd q).
Proof.
  intros enum He W fs Hc es q.
  assert (I : exists i a n, nth_error (fst q) i = Some a /\ who Library B a = (t_count, false) /\ state Library B a = CNat n /\ length (filter negb (snd q)) <= n <= length (snd q)).
  { unfold q, try_history. induction es as [|e es IH] using rev_ind.
    - destruct (built_find Library B library_laws enum He W fs (t_count, false) Hc) as (a & Fa & Wa). apply (find_in Library B library_laws) in Fa as [Ia _].
      destruct (In_nth_error _ _ Ia) as [i Hi]. exists i, a, 0. split; [exact Hi|]. split; [exact Wa|]. split; [|cbn; lia].
      rewrite (built_state Library B enum W fs a Ia), Wa. reflexivity.
    - rewrite fold_left_app. cbn [fold_left]. set (p := fold_left (try_handle Library B X) es (construct Library B enum W fs, [])) in *.
      destruct IH as (i & a & n & Ha & Wa & Sa & Hn). destruct e as [x|t]; cbn [try_handle fst snd].
      + destruct (count_push (fst p) x i a n Ha Wa Sa) as (a' & Ha' & Wa' & m & Sm & Hm & Hs). exists i, a', m. split; [exact Ha'|]. split; [exact Wa'|]. split; [exact Sm|].
        rewrite filter_app, !app_length. cbn [filter length]. destruct (snd (try_push Library B X (fst p) x)); cbn [negb length]; [lia|]. rewrite (Hs eq_refl). lia.
      + destruct (drop_shape Library B (fst p) t) as [Q1 Q2].
        assert (N1 : nth_error (map (who Library B) (drop Library B t (fst p))) i = Some (t_count, false)) by (rewrite Q1; rewrite <- Wa; now apply map_nth_error).
        assert (N2 : nth_error (map (state Library B) (drop Library B t (fst p))) i = Some (CNat n)) by (rewrite Q2; rewrite <- Sa; now apply map_nth_error).
        destruct (nth_error (drop Library B t (fst p)) i) as [a'|] eqn:Ea.
        * rewrite (map_nth_error _ _ _ Ea) in N1. rewrite (map_nth_error _ _ _ Ea) in N2. injection N1 as N1. injection N2 as N2. exists i, a', n. split; [exact Ea|]. split; [exact N1|]. split; [exact N2|exact Hn].
        * exfalso. apply nth_error_None in Ea. assert (Lm : i < length (map (who Library B) (drop Library B t (fst p)))) by (apply nth_error_Some; rewrite N1; discriminate).
          rewrite map_length in Lm. lia. }
  destruct I as (i & a & n & Ha & Wa & Sa & Hn). exists n. split; [|exact Hn].
  assert (Wq : map (who Library B) (fst q) = make_tuple Library enum W fs) by (unfold q, try_history; rewrite try_history_who; apply construct_who).
  assert (F : find Library B (fst q) t_count = Some a).
  { change t_count with (ffeature Library (t_count, false)). rewrite <- Wa. apply (find_here Library B library_laws); [rewrite Wq; exact (tuple_once Library library_laws enum He W fs)|].
    apply nth_error_In in Ha. exact Ha. }
  unfold read. cbn [extract]. rewrite F, Wa. cbn [fst]. rewrite Sa. reflexivity.
Qed.
End Counting.

(** ** Example: the sum throws when it is given a sample above 100 *)
Definition overflowing : Throwing Library ExB :=
  mkThrowing Library ExB (fun t _ x _ => match t with t_sum => ltb QcN (Q2Qc 100) (p_sample x) | _ => false end) (fun _ _ _ st => st).
Definition mean_fs : list (request Library) := [plain t_mean; plain t_max].
Definition tried (xs : list Z) := try_history Library ExB overflowing (built false mean_fs) (map push1 xs).
Lemma torn_mean : make_tuple Library in_order false mean_fs = [(t_count, false); (t_sum, false); (t_mean, false); (t_max, false)] /\
  snd (tried [4; 1000]%Z) = [false; true] /\
  shown (read Library ExB (fst (tried [4]%Z)) t_mean) = Some (4 # 1)%Q /\
  shown (read Library ExB (fst (tried [4; 1000]%Z)) t_mean) = Some (2 # 1)%Q /\
  shown (read Library ExB (push Library ExB (fst (tried [4]%Z)) (sm 1000)) t_mean) = Some (502 # 1)%Q /\
  shown (read Library ExB (fst (tried [4; 1000; 5; 6]%Z)) t_mean) = Some (15 # 4)%Q.
Proof. vm_compute. repeat split. Qed.
Lemma torn_set : let ts := make_tuple Library in_order false mean_fs in let s := fst (tried [4]%Z) in
  Compiles false ts /\ NoRollingClash ts /\ ReadsOnly Library ExB lconsults lon_push /\ snd (try_push Library ExB overflowing s (sm 1000)) = true /\
  (exists a b, ts = a ++ (t_sum, false) :: b /\ (forall v, Needs Library ts (t_count, false) v -> In v a) /\ (forall v, Needs Library ts (t_max, false) v -> In v b) /\
    Needs Library ts (t_mean, false) (t_count, false) /\ Needs Library ts (t_mean, false) (t_sum, false)).
Proof.
  cbv zeta. rewrite (proj1 torn_mean). split; [intros t H; each H|]. split; [intros a b Ha Hb Hr; each Hb; discriminate|].
  split; [exact (sets_read_only QcN (fun x => x) the_rest (rolling_reads_only QcN 2))|]. split; [vm_compute; reflexivity|].
  exists [(t_count, false)], [(t_mean, false); (t_max, false)]. split; [reflexivity|].
  assert (N : forall t v ts, ldeps (fst t) = [] -> Needs Library ts t v -> v = t).
  { intros t v ts E H. inversion H as [|? c ? _ _ Hr _]; subst; [reflexivity|]. exfalso. unfold Reads in Hr. change (deps Library (fst t)) with (ldeps (fst t)) in Hr. rewrite E in Hr. destruct Hr. }
  split; [intros v Hv; apply (N (t_count, false)) in Hv; [subst v; left; reflexivity|reflexivity]|].
  split; [intros v Hv; apply (N (t_max, false)) in Hv; [subst v; right; left; reflexivity|reflexivity]|].
  split; [apply (needs_read Library _ _ (t_count, false))|apply (needs_read Library _ _ (t_sum, false))]; try apply needs_self; cbn; tauto.
Qed.
