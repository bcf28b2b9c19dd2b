(** Concrete sessions with extractions, and sets in which an extraction is not an observation. *)

From Coq Require Import List ZArith Bool Lia Arith QArith Qcanon.
From Verif Require Import Num NumFacts ProofOrder SpecTail ModelTail ProofTailTop.
From Verif Require Import ModelFramework SpecFramework SpecFrozen ModelLibrary ModelSets SpecSets ModelRollingSets ModelWhole SpecWhole.
From Verif Require Import ProofFrameworkEx ProofWholeEx ModelObserve SpecObserve ProofObserve ProofObserve2 ProofObserveTop.
Import ListNotations.

Section Ex.
Variable pw : Qc -> Qc -> Qc.
Local Notation EA := (ex_args pw).
Definition MB : Behaviour Library := MemoSets QcN EA (fun x => x).
Definition see (f : ltag) : use Library MB := Extract Library MB f.
Definition give (x : Z) : use Library MB := Event Library MB (Push Library MB (sm x)).
Definition give2 (x v : Z) : use Library MB :=
  Event Library MB (Push Library MB (mkPack QcN (Q2Qc (x # 1)) 1%Qc (fun _ => 0%Qc) (fun _ => [Q2Qc (v # 1)]))).
Definition lose (t : ltag) : use Library MB := Event Library MB (Drop Library MB t).

(** What one sees of an answer. *)
Definition show (v : value QcN (note QcN)) : option (list Q) :=
  match v with
  | VNum a => Some [this a]
  | VNat n => Some [Z.of_nat n # 1]
  | VRest (NOut (Ok a)) => Some [this a]
  | VRest (NHist (Ok h)) => Some (map (fun b => this (snd b)) h)
  | VRest (NTail (Ok l) _) => Some (map (fun a : Qc => this a) l)
  | VRest (NVectors (Ok l)) => Some (map (fun v : list Qc => match v with a :: _ => this a | [] => 0%Q end) l)
  | _ => None
  end.
Definition with_looks (fs : list (request Library)) us f := show (Watched QcN EA (fun x => x) in_order false fs us f).
Definition without (fs : list (request Library)) us f := show (Unwatched QcN EA (fun x => x) in_order false fs us f).
End Ex.

(** stats<density, with_p_square_cumulative_distribution_median, tail<right>, droppable<mean>>. *)
Definition fs_seen : list (request Library) :=
  [plain t_density; plain t_with_p_square_cumulative_distribution_median; plain (t_tail on_right); dropped t_mean].
Definition us_seen (pw : Qc -> Qc -> Qc) : list (use Library (MB pw)) :=
  [give pw 1; see pw t_mean; give pw 3; see pw t_density; see pw t_abstract_tail; give pw 5; see pw t_median; lose pw t_mean;
   give pw 5; see pw t_density; see pw t_mean; give pw 9; see pw t_abstract_tail].
Definition ts_seen : list (ftag Library) :=
  [(t_count, false); (t_min, false); (t_max, false); (t_density, false); (t_p_square_cumulative_distribution, false);
   (t_with_p_square_cumulative_distribution_median, false); (t_tail on_right, false); (t_sum, true); (t_mean, true)].
Lemma tuple_seen : make_tuple Library in_order false fs_seen = ts_seen.
Proof. vm_compute; reflexivity. Qed.

Lemma seen_watchable : Watchable in_order false fs_seen.
Proof.
  split; rewrite ?tuple_seen.
  - apply in_order_enum.
  - intros t Ht; each Ht.
  - intros a b Ha Hb; each Ha.
  - intros t Ht; each Ht.
Qed.
Lemma seen_companions : forall t, In t (make_tuple Library in_order false fs_seen) -> companion (fst t) = false.
Proof. rewrite tuple_seen; intros t Ht; each Ht. Qed.
Lemma seen_undisturbing : forall f, Undisturbing (make_tuple Library in_order false fs_seen) f.
Proof. intros f; apply undisturbing; rewrite tuple_seen; intros t Ht; each Ht. Qed.

(** How many accumulators keep a result. *)
Definition kept (pw : Qc -> Qc -> Qc) (us : list (use Library (MB pw))) : nat :=
  length (filter (fun a => clean QcN (state Library (MB pw) a))
    (library_uses QcN (ex_args pw) (fun x => x) (construct Library (MB pw) in_order false fs_seen) us)).
Lemma seen_answers : forall pw,
  map (with_looks pw fs_seen (us_seen pw)) [t_density; t_median; t_abstract_tail; t_mean; t_count]
  = [Some [0; 1 # 5; 0; 4 # 5]; Some [7]; Some [9; 5; 5; 3]; Some [9 # 5]; Some [5]]%Q /\
  kept pw (us_seen pw ++ [see pw t_density; see pw t_median]) = 3%nat.
Proof. intros pw; vm_compute; split; reflexivity. Qed.

Lemma seen_session : forall pw,
  Session QcN (ex_args pw) (fun x => x) in_order false fs_seen (map plain_event (events_of (us_seen pw))) t_density.
Proof.
  intros pw; split; rewrite ?tuple_seen.
  - apply in_order_enum.
  - intros t Ht; each Ht.
  - intros a b Ha Hb; each Ha.
  - split; [split |].
    + repeat constructor; cbn; tauto.
    + intros t Ht; cbn in Ht; destruct Ht as [<- | []]; exists (t_mean, true); repeat split; cbn; tauto.
    + intros r t Ht Hr; cbn in Ht; destruct Ht as [<- | []]; each Hr.
  - exists (t_density, false), false; split.
    + split; [cbn; tauto | split; [reflexivity |]].
      intros Hd; cbn in Hd; destruct Hd as [Hd | []]; discriminate Hd.
    + apply needs_self; cbn; tauto.
Qed.

(** stats<tail_variate<right>> with pairwise different samples. *)
Definition fs_v : list (request Library) := [plain (t_tail_variate on_right 0)].
Definition us_v1 (pw : Qc -> Qc -> Qc) : list (use Library (MB pw)) :=
  [give2 pw 1 1; give2 pw 4 2; see pw t_abstract_tail_variate; give2 pw 3 3; give2 pw 2 4; see pw t_abstract_tail; give2 pw 7 5; give2 pw 0 6].
Lemma variates_watchable : Watchable in_order false fs_v.
Proof.
  assert (E : make_tuple Library in_order false fs_v = [(t_tail on_right, false); (t_tail_variate on_right 0, false)])
    by (vm_compute; reflexivity).
  split; rewrite ?E.
  - apply in_order_enum.
  - intros t Ht; each Ht.
  - intros a b Ha Hb; each Ha.
  - intros t Ht; each Ht.
Qed.
Lemma variates_undisturbing : forall f, Undisturbing (make_tuple Library in_order false fs_v) f.
Proof.
  intros f; apply undisturbing.
  assert (E : make_tuple Library in_order false fs_v = [(t_tail on_right, false); (t_tail_variate on_right 0, false)])
    by (vm_compute; reflexivity).
  rewrite E; intros t Ht; each Ht.
Qed.
Lemma variates_apart : forall pw, NoDup (map p_sample (samples Library (MB pw) (events_of (us_v1 pw)))).
Proof.
  intros pw; apply (NoDup_map_inv (fun x : Qc => this x)); cbn.
  repeat constructor; cbn; intros Hx; repeat (destruct Hx as [Hx | Hx]; [discriminate Hx |]); exact Hx.
Qed.
Lemma variates_answers : forall pw, with_looks pw fs_v (us_v1 pw) t_abstract_tail_variate = Some [5; 2; 3; 4]%Q.
Proof. intros pw; vm_compute; reflexivity. Qed.

(** ** Sets in which extractions are not observations *)

(** A dropped density that count still divides: what it reports depends on whether it was extracted before the drop. *)
Definition fs_d : list (request Library) := [dropped t_density; plain t_count].
Definition us_d (pw : Qc -> Qc -> Qc) : list (use Library (MB pw)) :=
  [give pw 1; give pw 3; give pw 5; see pw t_density; lose pw t_density; give pw 5].
Definition ts_d : list (ftag Library) := [(t_count, false); (t_min, true); (t_max, true); (t_density, true)].
Lemma tuple_d : make_tuple Library in_order false fs_d = ts_d.
Proof. vm_compute; reflexivity. Qed.
Lemma dropped_differs : forall pw,
  with_looks pw fs_d (us_d pw) t_density = Some [0; 1 # 3; 0; 2 # 3]%Q /\
  without pw fs_d (us_d pw) t_density = Some [0; 1 # 4; 0; 1 # 2]%Q.
Proof. intros pw; vm_compute; split; reflexivity. Qed.
Lemma same_show : forall v w, SameAnswer QcN v w -> show v = show w.
Proof. intros v w; now apply (view QcN (option (list Q)) show). Qed.

Lemma differ_not_same : forall pw fs us f a b, with_looks pw fs us f = a /\ without pw fs us f = b -> a <> b ->
  ~ SameAnswer QcN (Watched QcN (ex_args pw) (fun x => x) in_order false fs us f)
                   (Unwatched QcN (ex_args pw) (fun x => x) in_order false fs us f).
Proof. intros pw fs us f a b [E1 E2] Hn Hs; apply Hn; rewrite <- E1, <- E2; exact (same_show _ _ Hs). Qed.

Lemma dropped_not_watched : exists fs f, forall pw : Qc -> Qc -> Qc,
  let A := ex_args pw in let ts := make_tuple Library in_order false fs in
  exists us : list (use Library (MemoSets QcN A (fun x => x))),
  Compiles false ts /\ NoRollingClash ts /\ (forall t, In t ts -> companion (fst t) = false) /\
  (forall g, In g (extracted_of us) -> Undisturbing ts g) /\
  SafeDrops fs ts (dropped_tags Library (MemoSets QcN A (fun x => x)) (events_of us)) /\
  ~ SameAnswer QcN (Watched QcN A (fun x => x) in_order false fs us f) (Unwatched QcN A (fun x => x) in_order false fs us f).
Proof.
  exists fs_d, t_density; intros pw; cbv zeta; exists (us_d pw); rewrite tuple_d; split; [| split; [| split; [| split; [| split]]]].
  - intros t Ht; each Ht.
  - intros a b Ha Hb; each Ha.
  - intros t Ht; each Ht.
  - intros g _; apply undisturbing; intros t Ht; each Ht.
  - split; [split |].
    + repeat constructor; cbn; tauto.
    + intros t Ht; cbn in Ht; destruct Ht as [<- | []]; exists (t_density, true); repeat split; cbn; tauto.
    + intros r t Ht Hr; cbn in Ht; destruct Ht as [<- | []]; each Hr.
  - exact (differ_not_same pw _ _ _ _ _ (dropped_differs pw) ltac:(discriminate)).
Qed.

(** The median over a density never starts its sum again. *)
Definition fs_m : list (request Library) := [plain t_with_density_median].
Definition us_m (pw : Qc -> Qc -> Qc) : list (use Library (MB pw)) :=
  [give pw 1; give pw 3; give pw 2; see pw t_median; give pw 0; give pw 0].
Lemma tuple_m : make_tuple Library in_order false fs_m
  = [(t_count, false); (t_min, false); (t_max, false); (t_density, false); (t_with_density_median, false)].
Proof. vm_compute; reflexivity. Qed.
Lemma median_differs : forall pw,
  with_looks pw fs_m (us_m pw) t_median = Some [1 # 4]%Q /\ without pw fs_m (us_m pw) t_median = Some [3 # 2]%Q.
Proof. intros pw; vm_compute; split; reflexivity. Qed.
Lemma disturbing_not_watched : exists fs f, forall pw : Qc -> Qc -> Qc, let A := ex_args pw in
  exists us : list (use Library (MemoSets QcN A (fun x => x))),
  Watchable in_order false fs /\ (forall t, In t (make_tuple Library in_order false fs) -> companion (fst t) = false) /\
  ~ SameAnswer QcN (Watched QcN A (fun x => x) in_order false fs us f) (Unwatched QcN A (fun x => x) in_order false fs us f).
Proof.
  exists fs_m, t_median; intros pw; cbv zeta; exists (us_m pw); split; [split; rewrite ?tuple_m | split; rewrite ?tuple_m].
  - apply in_order_enum.
  - intros t Ht; each Ht.
  - intros a b Ha Hb; each Ha.
  - intros t Ht; each Ht.
  - intros t Ht; each Ht.
  - exact (differ_not_same pw _ _ _ _ _ (median_differs pw) ltac:(discriminate)).
Qed.

(** Equal samples: which of them is evicted depends on earlier extractions. *)
Definition us_v2 (pw : Qc -> Qc -> Qc) : list (use Library (MB pw)) :=
  [give2 pw 1 1; give2 pw 1 2; give2 pw 1 3; give2 pw 1 4; see pw t_abstract_tail; give2 pw 1 5; give2 pw 2 6].
Lemma variates_differ : forall pw,
  with_looks pw fs_v (us_v2 pw) t_abstract_tail_variate = Some [6; 3; 2; 1]%Q /\
  without pw fs_v (us_v2 pw) t_abstract_tail_variate = Some [6; 2; 3; 4]%Q.
Proof. intros pw; vm_compute; split; reflexivity. Qed.
Lemma ties_not_watched : exists fs f, forall pw : Qc -> Qc -> Qc, let A := ex_args pw in
  exists us : list (use Library (MemoSets QcN A (fun x => x))),
  Watchable in_order false fs /\ (forall g, In g (extracted_of us) -> Undisturbing (make_tuple Library in_order false fs) g) /\
  Watched QcN A (fun x => x) in_order false fs us f <> Unwatched QcN A (fun x => x) in_order false fs us f.
Proof.
  exists fs_v, t_abstract_tail_variate; intros pw; cbv zeta; exists (us_v2 pw); split; [exact variates_watchable | split].
  - intros g _; apply variates_undisturbing.
  - intros Hs; apply (differ_not_same pw _ _ _ _ _ (variates_differ pw) ltac:(discriminate)).
    rewrite Hs; apply same_refl.
Qed.
