(** Concrete sets with estimators; a set in which a feature changes because another one is added. *)

From Coq Require Import List Bool Arith ZArith QArith Qcanon Lia Permutation.
From Verif Require Import Num NumFacts SpecStats ProofOrder ModelMinMax ModelDensity ModelPSquare ModelTail SpecTail ProofTailTop ModelPot SpecPot ProofPot ProofPotReal.
From Verif Require Import ModelFramework SpecFramework ProofFramework ProofFrameworkRef ProofFrameworkRun.
From Verif Require Import ModelLibrary ModelSets SpecSets ProofLibrary ProofSets ProofSetsTop ProofFrameworkEx.
From Verif Require Import ModelRollingSets ModelWhole SpecWhole ProofWhole1 ProofWhole ProofWholeTop.
Import ListNotations.

Definition qz (n : Z) : Qc := Q2Qc (n # 1).
(** Limits -1000 and 1000, a window of 2, density (2, 2), probability 1/2, 3 cells, probabilities 1/4 and 1/2, tail of 4,
    threshold 0, threshold probability 1/4. *)
Definition ex_args (pw : Qc -> Qc -> Qc) : Args QcN :=
  mkArgs QcN (qz (-1000)) (qz 1000) 2 2 2 (Q2Qc (1 # 2)) 3 [Q2Qc (1 # 4); Q2Qc (1 # 2)] 4 (qz 0) (Q2Qc (1 # 4))
    sorting_heap Qc_ceil pw.
Definition WB (pw : Qc -> Qc -> Qc) : Behaviour Library := WholeSets QcN (ex_args pw) (fun x => x).
Definition wpush (pw : Qc -> Qc -> Qc) (x : Z) : event Library (WB pw) := Push Library (WB pw) (sm x).

(** stats<pot_tail_mean<right>>, and with tail_quantile<right>. *)
Definition fs1 : list (request Library) := [plain (t_pot_tail_mean on_right)].
Definition fs2 : list (request Library) := [plain (t_pot_tail_mean on_right); plain (t_tail_quantile on_right)].
Definition ts1 : list (ftag Library) :=
  [(t_count, false); (t_peaks_over_threshold on_right, false); (t_pot_quantile on_right, false); (t_pot_tail_mean on_right, false)].
Definition ts2 : list (ftag Library) :=
  [(t_count, false); (t_tail_quantile on_right, false); (t_peaks_over_threshold on_right, false);
   (t_pot_tail_mean on_right, false); (t_tail on_right, false)].
Lemma tuple1 : make_tuple Library in_order false fs1 = ts1.
Proof. vm_compute; reflexivity. Qed.
Lemma tuple2 : make_tuple Library in_order false fs2 = ts2.
Proof. vm_compute; reflexivity. Qed.

Ltac each H := cbn in H; repeat (destruct H as [<- | H]; [try reflexivity; try discriminate |]); try destruct H.

Lemma plain_session : forall K (A : Args K) sqrt enum W fs es t b ts,
  Enumeration Library enum -> make_tuple Library enum W fs = ts ->
  Compiles W ts -> NoRollingClash ts -> dropped_tags Library (WholeSets K A sqrt) es = [] ->
  In (t, b) ts -> requests Library fs (t, b) = true -> Session K A sqrt enum W fs es t.
Proof.
  intros K A sqrt enum W fs es t b ts He E Hc Hr Hd Hi Hq; split; rewrite ?E, ?Hd; try assumption.
  - split; [| intros ? ? []]. split; [constructor | intros ? []].
  - exists (t, b), b; split; [| now apply needs_self].
    split; [assumption | split; [assumption | intros []]].
Qed.

Lemma session1 : forall pw es, dropped_tags Library (WB pw) es = [] ->
  Session QcN (ex_args pw) (fun x => x) in_order false fs1 es (t_pot_tail_mean on_right).
Proof.
  intros pw es Hd; apply (plain_session QcN (ex_args pw) (fun x => x) in_order false fs1 es _ false ts1); try assumption.
  - apply in_order_enum.
  - apply tuple1.
  - intros t Ht; each Ht.
  - intros a b Ha Hb; each Ha.
  - cbn; tauto.
  - reflexivity.
Qed.
Lemma session2 : forall pw es, dropped_tags Library (WB pw) es = [] ->
  Session QcN (ex_args pw) (fun x => x) in_order false fs2 es (t_pot_tail_mean on_right).
Proof.
  intros pw es Hd; apply (plain_session QcN (ex_args pw) (fun x => x) in_order false fs2 es _ false ts2); try assumption.
  - apply in_order_enum.
  - apply tuple2.
  - intros t Ht; each Ht.
  - intros a b Ha Hb; each Ha.
  - cbn; tauto.
  - reflexivity.
Qed.

Definition ex_zs : list Z := [1; 3; 5; -1]%Z.
Definition ex_hist (pw : Qc -> Qc -> Qc) : list (event Library (WB pw)) := map (wpush pw) ex_zs.
Lemma hist_drops : forall pw, dropped_tags Library (WB pw) (ex_hist pw) = [].
Proof. reflexivity. Qed.
Lemma hist_samples : forall pw, samples_of QcN (samples Library (WB pw) (ex_hist pw)) = map qz ex_zs.
Proof. reflexivity. Qed.

Definition ex_ys : list Qc := map qz [1; 3; 5]%Z.
Lemma ys_exceed : Exceedances QcN Right (qz 0) (map qz ex_zs) = ex_ys.
Proof. reflexivity. Qed.
Lemma ys_var : Variance QcN ex_ys <> zero QcN.
Proof. intros H; apply (f_equal (fun x : Qc => this x)) in H; vm_compute in H; discriminate H. Qed.
Lemma ys_xi : Xi QcN (Mean QcN ex_ys) (Variance QcN ex_ys) (qz 0) <> zero QcN.
Proof. intros H; apply (f_equal (fun x : Qc => this x)) in H; vm_compute in H; discriminate H. Qed.
Lemma ys_xi1 : Xi QcN (Mean QcN ex_ys) (Variance QcN ex_ys) (qz 0) <> one QcN.
Proof. intros H; apply (f_equal (fun x : Qc => this x)) in H; vm_compute in H; discriminate H. Qed.

Definition ex_p : Qc := Q2Qc (1 # 4).
Definition ex_fit (pw : Qc -> Qc -> Qc) : Qc * Qc * Qc :=
  PotParameters QcN pw (Mean QcN ex_ys) (Variance QcN ex_ys) (qz 0) (div QcN (ofnat QcN 3) (ofnat QcN 4)).

Lemma tail_third : forall pw prov, prov t_abstract_tail = t_tail on_right ->
  SpecWhole.Quantile QcN (ex_args pw) prov (samples Library (WB pw) (ex_hist pw)) (t_tail_quantile on_right) ex_p = Ok (qz 1).
Proof.
  intros pw prov E; cbn [SpecWhole.Quantile]; rewrite E.
  apply f_equal with (f := fun x : outcome Qc => x). vm_compute.
  apply f_equal, Qc_is_canon; reflexivity.
Qed.

Lemma quantile_changes : exists fs fs' p, forall pw : Qc -> Qc -> Qc, exists es q q' v v',
  let A := ex_args pw in
  incl fs fs' /\
  Session QcN A (fun x => x) (fun m => m) false fs es (t_pot_tail_mean on_right) /\
  Session QcN A (fun x => x) (fun m => m) false fs' es (t_pot_tail_mean on_right) /\
  Extracted QcN A (fun x => x) (fun m => m) false fs es (t_pot_tail_mean on_right) = VRest (NFun q) /\
  Extracted QcN A (fun x => x) (fun m => m) false fs' es (t_pot_tail_mean on_right) = VRest (NFun q') /\
  q p = Ok v /\ q' p = Ok v' /\ v <> v'.
Proof.
  exists fs1, fs2, ex_p; intros pw.
  exists (ex_hist pw).
  set (H1 := session1 pw (ex_hist pw) (hist_drops pw)).
  set (H2 := session2 pw (ex_hist pw) (hist_drops pw)).
  destruct (set_pot_tail_mean QcN QcN_ordered (ex_args pw) (fun x => x) in_order false fs1 (ex_hist pw) on_right H1)
    as (q & E1 & Eq); rewrite ?hist_samples; try exact ys_var; try exact ys_xi; try exact ys_xi1.
  { exists false; rewrite tuple1; cbn; tauto. }
  { exists false; rewrite tuple1; cbn; tauto. }
  { discriminate. }
  destruct (set_pot_tail_mean_of QcN QcN_ordered (ex_args pw) (fun x => x) in_order false fs2 (ex_hist pw)
              on_right (t_tail_quantile on_right) H2)
    as (q' & E2 & Eq'); rewrite ?hist_samples; try exact ys_var; try exact ys_xi; try exact ys_xi1.
  { exists false; rewrite tuple2; cbn; tauto. }
  { exists false; rewrite tuple2; cbn; tauto. }
  { reflexivity. }
  { discriminate. }
  specialize (Eq ex_p); specialize (Eq' ex_p).
  rewrite tail_third in Eq'
    by (apply (contains_provider in_order in_order_enum false fs2 (t_tail on_right)); exists false; rewrite tuple2; cbn; tauto).
  unfold pot_tail_mean_result in Eq; cbn [obnd] in Eq'.
  rewrite (quantile_at_threshold QcN QcN_ordered) in Eq.
  2: exact ys_xi.
  2: { apply Qc_is_canon; vm_compute; reflexivity. }
  exists q, q'; do 2 eexists.
  split; [| split; [exact H1 | split; [exact H2 | split; [exact E1 | split; [exact E2 | split; [exact Eq | split; [exact Eq' |]]]]]]].
  - intros r [<- | []]; now left.
  - unfold pot_tail_mean_of, PotParameters.
    match goal with |- sub QcN ?a ?c <> sub QcN ?b ?d => change d with c; generalize c end.
    intros c Hc.
    assert (Ha : forall a b : Qc, a - c = b - c -> a = b) by (intros a b Hab; replace a with (a - c + c) by ring; rewrite Hab; ring).
    apply Ha in Hc; discriminate Hc.
Qed.

(** ** A set of many estimators, one of them dropped on the way *)
Definition fs3 : list (request Library) := [dropped t_density; plain t_max; plain t_median; plain t_p_square_quantile;
  plain t_extended_p_square; plain t_p_square_cumulative_distribution; plain (t_tail_quantile on_right);
  plain (t_non_coherent_tail_mean on_right); plain (t_absolute_tail_variate_means on_right 0); plain t_min;
  plain (t_peaks_over_threshold on_right); plain t_variance].
Definition ts3 : list (ftag Library) :=
  [(t_max, false); (t_min, false); (t_count, true); (t_density, true); (t_p_square_quantile_for_median, false);
   (t_median, false); (t_p_square_quantile, false); (t_extended_p_square, false); (t_p_square_cumulative_distribution, false);
   (t_tail on_right, false); (t_tail_quantile on_right, false); (t_non_coherent_tail_mean on_right, false);
   (t_tail_variate on_right 0, false); (t_absolute_tail_variate_means on_right 0, false);
   (t_peaks_over_threshold on_right, false); (t_immediate_mean, false); (t_variance, false)].
Lemma tuple3 : make_tuple Library in_order false fs3 = ts3.
Proof. vm_compute; reflexivity. Qed.
Definition es3 (pw : Qc -> Qc -> Qc) : list (event Library (WB pw)) :=
  map (wpush pw) [4; 1; 5]%Z ++ Drop Library (WB pw) t_density :: map (wpush pw) [-2; 6; 3; 2]%Z.
Definition live3 : list ltag := [t_max; t_min; t_median; t_p_square_quantile; t_extended_p_square;
   t_p_square_cumulative_distribution; t_tail_quantile on_right; t_non_coherent_tail_mean on_right;
   t_absolute_tail_variate_means on_right 0; t_peaks_over_threshold on_right; t_variance; t_tail on_right].

Ltac isin := first [left; reflexivity | right; isin].

Lemma session3 : forall pw t, In t live3 -> Session QcN (ex_args pw) (fun x => x) in_order false fs3 (es3 pw) t.
Proof.
  intros pw t Ht; split; rewrite ?tuple3; try change (dropped_tags Library (WholeSets QcN (ex_args pw) (fun x => x)) (es3 pw)) with [t_density].
  - apply in_order_enum.
  - intros u Hu; each Hu.
  - intros a b Ha Hb; each Ha.
  - split; [split |].
    + constructor; [intros [] | constructor].
    + intros u [<- | []]; exists (t_density, true); split; [isin | split; [reflexivity | split; reflexivity]].
    + intros r u [<- | []] Hr E; each Hr.
  - assert (Hl : forall u, In (u, false) ts3 -> requests Library fs3 (u, false) = true -> lfeature u <> t_density ->
                   Live Library fs3 ts3 [t_density] (u, false)).
    { intros u H1 H2 H3; split; [assumption | split; [assumption |]]; intros [H | []]; now apply H3. }
    destruct (in_app_or [t_tail on_right] (removelast live3) t) as [[<- | []] | Hr].
    { revert t Ht; apply Forall_forall; unfold live3; cbn [removelast app].
      repeat apply Forall_cons; try apply Forall_nil; isin. }
    + exists (t_tail_quantile on_right, false), false; split; [apply Hl; [isin | reflexivity | discriminate] |].
      apply (needs_read Library ts3 _ ((t_tail on_right, false) : ftag Library)); [isin | isin | isin | apply needs_self; isin].
    + exists (t, false), false; clear Ht; revert t Hr; apply Forall_forall; unfold live3; cbn [removelast].
      repeat apply Forall_cons; try apply Forall_nil;
        (split; [apply Hl; [isin | vm_compute; reflexivity | discriminate] | apply needs_self; isin]).
Qed.

(** The value as plain rationals: functions of a probability are taken at [p]. *)
Definition plainly (p : Qc) (v : value QcN (note QcN)) : outcome (list Q) :=
  match v with
  | VNum x | VRest (NNum x) | VRest (NOut (Ok x)) => Ok [this x]
  | VRest (NFit (Ok (a, b, c))) => Ok [this a; this b; this c]
  | VRest (NHist (Ok h)) => Ok (flat_map (fun e => [this (fst e); this (snd e)]) h)
  | VRest (NList (Ok l)) => Ok (map (fun x : Qc => this x) l)
  | VRest (NTail (Ok l) _) => Ok (map (fun x : Qc => this x) l)
  | VRest (NFun f) => obnd (f p) (fun x : Qc => Ok [this x])
  | VRest (NVFun f) => obnd (f p) (fun l => Ok (map (fun x : Qc => this x) l))
  | _ => UB
  end.
Definition got (t : ltag) : outcome (list Q) :=
  plainly (Q2Qc (3 # 4)) (Extracted QcN (ex_args (fun x _ => x)) (fun x => x) in_order false fs3 (es3 (fun x _ => x)) t).
Lemma got_live3 : map got live3 =
  [Ok [6#1]; Ok [-2#1]; Ok [3#1]; Ok [3#1]; Ok [2#1; 4#1]; Ok [-2#1; 1#7; 3#1; 3#7; 4#1; 5#7; 6#1; 1#1]; Ok [5#1]; Ok [11#2];
   Ok []; Ok [-39#56; 39#5; -8#5]; Ok [304#49]; Ok [6#1; 5#1; 4#1; 3#1]]%Q.
Proof. vm_compute; reflexivity. Qed.

(** A weighted set. *)
Definition fs4 : list (request Library) := [plain t_weighted_density; dropped t_max; plain t_weighted_p_square_quantile;
  plain (t_weighted_tail_quantile on_left); plain (t_non_coherent_weighted_tail_mean on_left); plain t_weighted_mean].
Definition ts4 : list (ftag Library) :=
  [(t_max, true); (t_count, false); (t_sum_of_weights, false); (t_min, false); (t_weighted_density, false);
   (t_weighted_p_square_quantile, false); (t_tail on_left, false); (t_tail_weights on_left, false);
   (t_weighted_tail_quantile on_left, false); (t_non_coherent_weighted_tail_mean on_left, false);
   (t_weighted_sum, false); (t_weighted_mean, false)].
Lemma tuple4 : make_tuple Library in_order true fs4 = ts4.
Proof. vm_compute; reflexivity. Qed.
Definition es4 (pw : Qc -> Qc -> Qc) : list (event Library (WB pw)) :=
  map (fun e : Z * Z => Push Library (WB pw) (pk (qz (fst e)) (qz (snd e)) (fun _ => qz 0)))
      [(4, 1); (1, 2); (5, 1); (-2, 3); (6, 1); (3, 2)]%Z.
Definition live4 : list ltag := [t_weighted_density; t_weighted_p_square_quantile; t_weighted_tail_quantile on_left;
  t_non_coherent_weighted_tail_mean on_left].
Lemma session4 : forall pw t, In t live4 -> Session QcN (ex_args pw) (fun x => x) in_order true fs4 (es4 pw) t.
Proof.
  intros pw t Ht; apply (plain_session QcN (ex_args pw) (fun x => x) in_order true fs4 (es4 pw) _ false ts4).
  - apply in_order_enum.
  - apply tuple4.
  - intros u Hu; each Hu.
  - intros a b Ha Hb; each Ha.
  - reflexivity.
  - revert t Ht; apply Forall_forall; unfold live4; repeat apply Forall_cons; try apply Forall_nil; isin.
  - revert t Ht; apply Forall_forall; unfold live4; repeat apply Forall_cons; try apply Forall_nil; vm_compute; reflexivity.
Qed.
Definition got4 (t : ltag) : outcome (list Q) :=
  plainly (Q2Qc (1 # 2)) (Extracted QcN (ex_args (fun x _ => x)) (fun x => x) in_order true fs4 (es4 (fun x _ => x)) t).
Lemma got_live4 : map got4 live4 =
  [Ok [-1#2; 3#10; 1#1; 1#5; 5#2; 1#5; 4#1; 3#10]; Ok [3#1]; Ok [1#1]; Ok [-4#5]]%Q.
Proof. vm_compute; reflexivity. Qed.
