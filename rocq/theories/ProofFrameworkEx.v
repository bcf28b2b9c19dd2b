(** Concrete sets: instances of the theorems about the framework, and the sets for
    which the plain claims fail. *)

From Coq Require Import List Bool Arith ZArith QArith Qcanon Lia Permutation.
From Verif Require Import Num NumFacts SpecStats SpecRolling.
From Verif Require Import ModelFramework SpecFramework ModelLibrary ModelSets SpecSets ModelRollingSets SpecRollingSets.
From Verif Require Import ProofFramework ProofFrameworkRef ProofFrameworkRun ProofLibrary ProofSets ProofSetsTop ProofRollingSets.
Import ListNotations.

Definition in_order (m : fmap Library) : fmap Library := m.
Definition plain (t : ltag) : request Library := @One Library (t, false).
Definition dropped (t : ltag) : request Library := @One Library (t, true).

Lemma in_order_enum : Enumeration Library in_order.
Proof. intros m; apply Permutation_refl. Qed.
Lemma rev_enum : Enumeration Library (@rev _).
Proof. intros m; symmetry; apply Permutation_rev. Qed.

Definition the_rest : Rest QcN := RollingRest QcN 2.
Definition ExB : Behaviour Library := BasicSets QcN (fun x => x) the_rest.
Definition pk (x w : Qc) (v : nat -> Qc) : pack QcN := mkPack QcN x w v (fun _ => []).
Definition sm (x : Z) : pack QcN := pk (Q2Qc (x # 1)) 1%Qc (fun n => Q2Qc ((Z.of_nat n + 1) * x # 1)).
Definition push1 (x : Z) : event Library ExB := Push Library ExB (sm x).
Definition drop1 (t : ltag) : event Library ExB := Drop Library ExB t.
Definition built (W : bool) (fs : list (request Library)) : accset Library ExB :=
  construct Library ExB in_order W fs.
Definition reading (W : bool) (fs : list (request Library)) (es : list (event Library ExB)) (f : ltag) :=
  read Library ExB (history Library ExB (built W fs) es) f.
Definition stopped (W : bool) (fs : list (request Library)) (es : list (event Library ExB)) : list ltag :=
  map (fun a => fst (who Library ExB a))
    (filter (is_dropped Library ExB) (history Library ExB (built W fs) es)).
Definition running (W : bool) (fs : list (request Library)) (es : list (event Library ExB)) : list ltag :=
  map (fun a => fst (who Library ExB a))
    (filter (fun a => droppable Library ExB a && negb (is_dropped Library ExB a))
       (history Library ExB (built W fs) es)).
Lemma stopped_in : forall W fs es t, In t (stopped W fs es) ->
  exists a, In a (history Library ExB (built W fs) es) /\
    who Library ExB a = (t, true) /\ is_dropped Library ExB a = true.
Proof.
  intros W fs es t H; unfold stopped in H; apply in_map_iff in H; destruct H as [a [E Ha]].
  apply filter_In in Ha; destruct Ha as [Ha Hd]; exists a; split; [exact Ha | split; [| exact Hd]].
  unfold is_dropped, droppable in Hd; apply andb_true_iff in Hd; destruct Hd as [Hd _].
  rewrite (surjective_pairing (who Library ExB a)), E, Hd; reflexivity.
Qed.
Lemma running_in : forall W fs es t, In t (running W fs es) ->
  exists a, In a (history Library ExB (built W fs) es) /\
    droppable Library ExB a = true /\ is_dropped Library ExB a = false.
Proof.
  intros W fs es t H; unfold running in H; apply in_map_iff in H; destruct H as [a [E Ha]].
  apply filter_In in Ha; destruct Ha as [Ha Hd]; exists a; split; [exact Ha |].
  apply andb_true_iff in Hd; destruct Hd as [H1 H2]; apply negb_true_iff in H2; now split.
Qed.
Definition asserted (W : bool) (fs : list (request Library)) (es : list (event Library ExB)) : bool :=
  existsb (tripped Library ExB) (history Library ExB (built W fs) es).

(** ** Resolution *)
Definition ex_fs : list (request Library) := [plain t_skewness; dropped t_immediate_mean].


Lemma ex_tuple : make_tuple Library in_order false ex_fs =
  [(t_count, false); (t_immediate_mean, true); (t_sum, false); (t_moment 2, false);
   (t_moment 3, false); (t_skewness, false)].
Proof. vm_compute. reflexivity. Qed.

Lemma ex_tuple_rev : make_tuple Library (@rev _) false ex_fs =
  [(t_count, true); (t_moment 3, false); (t_moment 2, false); (t_sum, false);
   (t_immediate_mean, true); (t_skewness, false)].
Proof. vm_compute. reflexivity. Qed.

(** The right tail was asked for, the left one is there. *)
Lemma ex_sides : make_tuple Library in_order false [plain (t_tail on_left); plain (t_tail on_right)]
  = [(t_tail on_left, false)].
Proof. vm_compute. reflexivity. Qed.

Lemma sides_lost : exists fs t, In t (listed Library fs) /\
  Compiles false (make_tuple Library (fun m => m) false fs) /\
  ~ In t (make_tuple Library (fun m => m) false fs).
Proof.
  exists [plain (t_tail on_left); plain (t_tail on_right)], (t_tail on_right, false).
  change (fun m : fmap Library => m) with in_order; unfold Compiles; rewrite ex_sides; split; [| split].
  - right; now left.
  - intros t [<- | []]; reflexivity.
  - intros [H | []]; discriminate H.
Qed.

(** ** Order *)
Definition shown (v : value QcN (rcell QcN)) : option Q :=
  match v with VNum a | VRest (RNum a) => Some (this a) | _ => None end.

Lemma before_index : forall A (x y : A) l, Before x y l ->
  exists i j, (i < j)%nat /\ nth_error l i = Some x /\ nth_error l j = Some y.
Proof.
  intros A x y l (l1 & l2 & l3 & ->).
  exists (length l1), (length l1 + S (length l2))%nat; split; [lia | split].
  - rewrite nth_error_app2 by lia; now rewrite Nat.sub_diag.
  - rewrite nth_error_app2 by lia; replace (length l1 + S (length l2) - length l1)%nat with (S (length l2)) by lia.
    cbn; rewrite nth_error_app2 by lia; now rewrite Nat.sub_diag.
Qed.

Definition clash : list (request Library) := [plain t_rolling_variance; plain t_lazy_rolling_mean].

Lemma clash_tuple : make_tuple Library in_order false clash =
  [(t_rolling_window_plus1, false); (t_rolling_count, false); (t_lazy_rolling_mean, false);
   (t_rolling_variance, false); (t_rolling_sum, false)].
Proof. vm_compute. reflexivity. Qed.

Lemma clash_order : ~ PushOrdered Library lon_push (make_tuple Library in_order false clash).
Proof.
  rewrite clash_tuple; intros H.
  match type of H with PushOrdered _ _ ?l =>
    assert (HN : Needs Library l (t_rolling_variance, false) (t_rolling_sum, false)) end.
  { apply (needs_read Library _ _ (t_lazy_rolling_mean, false)); [cbn; tauto | cbn; tauto | vm_compute; tauto |].
    apply (needs_read Library _ _ (t_rolling_sum, false)); [cbn; tauto | cbn; tauto | vm_compute; tauto |].
    apply needs_self; cbn; tauto. }
  destruct (before_index _ _ _ _ (H (t_rolling_variance, false) (t_rolling_sum, false) ltac:(cbn; tauto) eq_refl HN ltac:(discriminate))) as (i & j & Hij & Hi & Hj).
  destruct i as [| [| [| [| [| i]]]]]; try discriminate Hi.
  - destruct j as [| [| [| [| [| j]]]]]; try lia; destruct j; discriminate Hj.
  - destruct i; discriminate Hi.
Qed.

Lemma clash_compiles : Compiles false (make_tuple Library in_order false clash).
Proof.
  unfold Compiles; rewrite clash_tuple; intros t Ht; cbn in Ht.
  repeat (destruct Ht as [<- | Ht]; [reflexivity |]); destruct Ht.
Qed.

Lemma clash_wrong :
  shown (reading false clash (map push1 [1; 2; 4]%Z) t_rolling_variance) = Some 13%Q /\
  shown (reading false [plain t_rolling_variance] (map push1 [1; 2; 4]%Z) t_rolling_variance) = Some 2%Q.
Proof. split; vm_compute; reflexivity. Qed.

Lemma order_refuted : exists fs xs, let ts := make_tuple Library (fun m => m) false fs in
  let B := BasicSets QcN (fun x => x) (RollingRest QcN 2) in
  Compiles false ts /\ ~ PushOrdered Library lon_push ts /\
  ~ RollingAnswer QcN 2 t_rolling_variance xs
      (read Library B (pushes Library B (construct Library B (fun m => m) false fs) xs) t_rolling_variance).
Proof.
  exists clash, (map sm [1; 2; 4]%Z); split; [apply clash_compiles | split; [apply clash_order |]].
  intros H; apply (f_equal shown) in H; vm_compute in H; discriminate H.
Qed.

(** ** Two covariates *)
Definition two : list (request Library) := [plain (t_mean_of_variates 0); plain (t_mean_of_variates 1)].

Lemma two_tuple : make_tuple Library in_order false two =
  [(t_count, false); (t_sum_of_variates 0, false); (t_mean_of_variates 0, false); (t_mean_of_variates 1, false)].
Proof. vm_compute. reflexivity. Qed.

Lemma variates_refuted : exists fs xs, let ts := make_tuple Library (fun m => m) false fs in
  let B := BasicSets QcN (fun x => x) (RollingRest QcN 2) in
  Compiles false ts /\ NoRollingClash ts /\ xs <> [] /\ In (t_mean_of_variates 1, false) ts /\
  read Library B (pushes Library B (construct Library B (fun m => m) false fs) xs) (t_mean_of_variates 1)
  <> VNum (Mean QcN (map (fun p => p_variate p 1%nat) xs)).
Proof.
  exists two, (map sm [1; 2; 6]%Z); unfold Compiles, NoRollingClash.
  change (fun m : fmap Library => m) with in_order; cbv zeta; rewrite two_tuple.
  split; [| split; [| split; [| split]]].
  - intros t Ht; cbn in Ht; repeat (destruct Ht as [<- | Ht]; [reflexivity |]); destruct Ht.
  - intros a b Ha _ Hr; cbn in Ha; repeat (destruct Ha as [<- | Ha]; [discriminate Hr |]); destruct Ha.
  - discriminate.
  - cbn; tauto.
  - intros H; apply (f_equal shown) in H; vm_compute in H; discriminate H.
Qed.

(** ** Drops that go wrong *)

(** drop<count>() twice stops count although mean, never dropped, needs it. *)
Definition cm : list (request Library) := [dropped t_count; dropped t_mean].
Definition cme : list (event Library ExB) := [push1 1; drop1 t_count; drop1 t_count; push1 3].

Lemma cm_wrong : stopped false cm cme = [t_count] /\ asserted false cm cme = false /\
  shown (reading false cm cme t_mean) = Some 4%Q.
Proof. split; [| split]; vm_compute; reflexivity. Qed.

Lemma twice_refuted : exists fs es r,
  let B := BasicSets QcN (fun x => x) (RollingRest QcN 2) in
  let ts := make_tuple Library (fun m => m) false fs in
  let s := history Library B (construct Library B (fun m => m) false fs) es in
  (forall t, In t (dropped_tags Library B es) -> In (t, true) (listed Library fs)) /\
  Live Library fs ts (dropped_tags Library B es) r /\
  existsb (tripped Library B) s = false /\
  exists a, In a s /\ Needs Library ts r (who Library B a) /\ is_dropped Library B a = true.
Proof.
  exists cm, cme, (t_mean, true); cbv zeta; split; [| split; [| split]].
  - intros t [<- | [<- | []]]; cbn; tauto.
  - split; [vm_compute; tauto | split; [reflexivity |]]; cbn; intuition discriminate.
  - exact (proj1 (proj2 cm_wrong)).
  - destruct (stopped_in false cm cme t_count) as (a & Ha & Hw & Hd);
      [rewrite (proj1 cm_wrong); now left |].
    exists a; split; [exact Ha | split; [| exact Hd]].
    change (Needs Library (make_tuple Library (fun m => m) false cm) (t_mean, true) (who Library ExB a)).
    rewrite Hw.
    apply (needs_read Library _ _ (t_count, true)); [vm_compute; tauto | vm_compute; tauto | vm_compute; tauto |].
    apply needs_self; vm_compute; tauto.
Qed.

(** One legal drop<mean>() of the immediate mean stops sum, which was requested, is not dropped,
    and was never used by the mean. *)
Definition ims : list (request Library) := [dropped t_immediate_mean; dropped t_sum].
Definition imse : list (event Library ExB) := [push1 1; drop1 t_mean; push1 3].

Lemma ims_wrong : stopped false ims imse = [t_count; t_immediate_mean; t_sum] /\
  asserted false ims imse = false /\ shown (reading false ims imse t_sum) = Some 1%Q.
Proof. split; [| split]; vm_compute; reflexivity. Qed.

Lemma ims_legal : LegalDrops Library ims (make_tuple Library in_order false ims) (dropped_tags Library ExB imse)
  /\ Live Library ims (make_tuple Library in_order false ims) (dropped_tags Library ExB imse) (t_sum, true).
Proof.
  split; [split |].
  - constructor; [intros [] | constructor].
  - intros t [<- | []]; exists (t_immediate_mean, true); split; [vm_compute; tauto | split; [| split]]; reflexivity.
  - split; [vm_compute; tauto | split; [reflexivity |]].
    intros [H | []]; discriminate H.
Qed.

Lemma implementation_refuted : exists fs es r,
  let B := BasicSets QcN (fun x => x) (RollingRest QcN 2) in
  let ts := make_tuple Library (fun m => m) false fs in
  LegalDrops Library fs ts (dropped_tags Library B es) /\
  Live Library fs ts (dropped_tags Library B es) r /\
  exists a, In a (history Library B (construct Library B (fun m => m) false fs) es) /\
    who Library B a = r /\ is_dropped Library B a = true.
Proof.
  exists ims, imse, (t_sum, true); cbv zeta.
  split; [apply ims_legal | split; [apply ims_legal |]].
  apply (stopped_in false ims imse t_sum); rewrite (proj1 ims_wrong); cbn; tauto.
Qed.

(** drop<variance>() of the lazy variance leaves moment<2> running for ever. *)
Definition lv : list (request Library) := [dropped t_lazy_variance].
Definition lve : list (event Library ExB) := [push1 1; drop1 t_variance; push1 3].

Lemma lv_wrong : stopped false lv lve = [t_count; t_sum; t_mean; t_lazy_variance] /\
  running false lv lve = [t_moment 2].
Proof. split; vm_compute; reflexivity. Qed.

Lemma leak_refuted : exists fs es,
  let B := BasicSets QcN (fun x => x) (RollingRest QcN 2) in
  let ts := make_tuple Library (fun m => m) false fs in
  LegalDrops Library fs ts (dropped_tags Library B es) /\
  (forall r, ~ Live Library fs ts (dropped_tags Library B es) r) /\
  exists a, In a (history Library B (construct Library B (fun m => m) false fs) es) /\
    droppable Library B a = true /\ is_dropped Library B a = false.
Proof.
  exists lv, lve; cbv zeta; split; [split | split].
  - constructor; [intros [] | constructor].
  - intros t [<- | []]; exists (t_lazy_variance, true); split; [vm_compute; tauto | split; [| split]]; reflexivity.
  - intros r (H1 & H2 & H3); apply H3; vm_compute in H1.
    repeat (destruct H1 as [<- | H1]; [try discriminate H2; left; reflexivity |]); destruct H1.
  - apply (running_in false lv lve (t_moment 2)); rewrite (proj2 lv_wrong); cbn; tauto.
Qed.

(** A droppable feature inside a nested sequence starts out dropped. *)
Lemma nested_refuted : exists fs xs t,
  let B := BasicSets QcN (fun x => x) (RollingRest QcN 2) in
  In t (listed Library fs) /\ Compiles false (make_tuple Library (fun m => m) false fs) /\
  read Library B (pushes Library B (construct Library B (fun m => m) false fs) xs) (lfeature (fst t))
  <> VNum (total QcN (fun x => x) (map p_sample xs)).
Proof.
  exists [@Many Library [(t_sum, true)]], (map sm [1; 3]%Z), (t_sum, true); cbv zeta; split; [| split].
  - now left.
  - intros t Ht; vm_compute in Ht; destruct Ht as [<- | []]; reflexivity.
  - intros H; apply (f_equal shown) in H; vm_compute in H; discriminate H.
Qed.

(** drop<mean>() of a plain mean lowers the counts of what it needs; then drop<sum>() stops sum. *)
Definition pl : list (request Library) := [plain t_mean; dropped t_sum; dropped t_count].
Definition ple : list (event Library ExB) := [push1 1; drop1 t_mean; drop1 t_sum; push1 3].

Lemma pl_wrong : stopped false pl ple = [t_sum] /\ asserted false pl ple = false /\
  shown (reading false pl ple t_mean) = Some (1 # 2)%Q.
Proof. split; [| split]; vm_compute; reflexivity. Qed.

(** With weights drop<mean>() stops count, which nothing asked to drop. *)
Definition wm : list (request Library) := [dropped t_mean; dropped t_count].
Definition wme : list (event Library ExB) := [push1 1; drop1 t_mean; push1 3].

Lemma wm_wrong : stopped true wm wme = [t_weighted_sum; t_weighted_mean; t_count] /\
  asserted true wm wme = false.
Proof. split; vm_compute; reflexivity. Qed.

(** A second drop<count>() brings a dropped count back to life (the assertion fires, if enabled). *)
Definition tw : list (request Library) := [dropped t_count].
Definition twe : list (event Library ExB) := [push1 1; drop1 t_count; push1 2].
Definition twe' : list (event Library ExB) := [drop1 t_count; push1 3].

Lemma tw_wrong : stopped false tw twe = [t_count] /\ reading false tw twe t_count = VNat 1 /\
  reading false tw (twe ++ twe') t_count = VNat 2 /\ asserted false tw (twe ++ twe') = true.
Proof. repeat split; vm_compute; reflexivity. Qed.

Lemma resumes_refuted : exists fs es es' a a',
  let B := BasicSets QcN (fun x => x) (RollingRest QcN 2) in
  let s0 := construct Library B (fun m => m) false fs in
  nth_error (history Library B s0 es) 0 = Some a /\ is_dropped Library B a = true /\
  nth_error (history Library B s0 (es ++ es')) 0 = Some a' /\ state Library B a' <> state Library B a.
Proof.
  exists tw, twe, twe', (mkAcc Library ExB (t_count, true) 0 false (CNat 1)),
    (mkAcc Library ExB (t_count, true) (-1) true (CNat 2)).
  cbv zeta; repeat split; try (vm_compute; reflexivity); discriminate.
Qed.

(** ** Drops that go right, and correct answers *)
Definition good_fs : list (request Library) :=
  [dropped t_variance; dropped t_mean; plain t_skewness; dropped t_min; dropped (t_covariance 3); plain t_rolling_variance].
Definition good_es : list (event Library ExB) :=
  [push1 1; drop1 t_variance; push1 3; drop1 t_mean; push1 (-2); drop1 t_abstract_covariance].

Lemma good_tuple : make_tuple Library in_order false good_fs =
  [(t_count, true); (t_sum, true); (t_mean, true); (t_variance, true); (t_moment 2, false);
   (t_moment 3, false); (t_skewness, false); (t_min, true); (t_sum_of_variates 3, true);
   (t_mean_of_variates 3, true); (t_covariance 3, true); (t_rolling_window_plus1, false);
   (t_rolling_count, false); (t_immediate_rolling_mean, false); (t_rolling_variance, false)].
Proof. vm_compute. reflexivity. Qed.

Ltac each H := cbn in H; repeat (destruct H as [<- | H]; [cbn; try reflexivity; try lia; try congruence |]); try (destruct H; fail).

(** The hypotheses of [library_answers] and [rolling_answers] hold of this set and history. *)
Lemma good_set : let ts := make_tuple Library in_order false good_fs in
  Compiles false ts /\ NoRollingClash ts /\ OneVariate 3 ts /\
  (forall t, In t ts -> order_ok (fst t)) /\ (forall t, In t ts -> rolling_order_ok (fst t)) /\
  SafeDrops good_fs ts (dropped_tags Library ExB good_es) /\
  Live Library good_fs ts (dropped_tags Library ExB good_es) (t_skewness, false) /\
  Live Library good_fs ts (dropped_tags Library ExB good_es) (t_rolling_variance, false).
Proof.
  cbv zeta; rewrite good_tuple; repeat split.
  - intros t H; each H.
  - intros a b Ha Hb Hr; each Hb; discriminate.
  - intros t n H; each H.
  - intros t H; each H; exact I.
  - intros t H; each H; exact I.
  - cbn; repeat (apply NoDup_cons; [cbn; intuition discriminate |]); apply NoDup_nil.
  - intros t H; cbn in H; destruct H as [<- | [<- | [<- | []]]];
      [exists (t_variance, true) | exists (t_mean, true) | exists (t_covariance 3, true)];
      (split; [cbn; tauto | repeat split]).
  - intros r t _ Hr _; each Hr.
  - cbn; tauto.
  - cbn; intuition discriminate.
  - cbn; tauto.
  - cbn; intuition discriminate.
Qed.

Lemma good_answers :
  stopped false good_fs good_es = [t_variance; t_covariance 3] /\ asserted false good_fs good_es = false /\
  shown (reading false good_fs good_es t_skewness) = Some (-42 # 361)%Q /\
  shown (reading false good_fs good_es t_rolling_variance) = Some (25 # 2)%Q.
Proof. repeat split; vm_compute; reflexivity. Qed.
