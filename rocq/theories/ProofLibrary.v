(** The statistics library obeys the laws of a library of features, and the sets
    built from it are pushed in a good order (with one exception). *)

From Coq Require Import List Bool Arith Lia.
From Verif Require Import ModelFramework SpecFramework ProofFramework ModelLibrary ModelSets SpecSets.
Import ListNotations.

Definition decode (i : nat) (b : bool) (v : nat) : ltag :=
  let s := if b then on_left else on_right in
  nth i [t_count;
  t_min;
  t_max;
  t_sum;
  t_sum_kahan;
  t_weighted_sum;
  t_weighted_sum_kahan;
  t_sum_of_weights;
  t_sum_of_weights_kahan;
  t_abstract_sum_of_variates;
  t_sum_of_variates v;
  t_sum_of_variates_kahan v;
  t_abstract_weighted_sum_of_variates;
  t_weighted_sum_of_variates v;
  t_weighted_sum_of_variates_kahan v;
  t_mean;
  t_immediate_mean;
  t_weighted_mean;
  t_immediate_weighted_mean;
  t_mean_of_weights;
  t_immediate_mean_of_weights;
  t_mean_of_variates v;
  t_immediate_mean_of_variates v;
  t_weighted_mean_of_variates v;
  t_immediate_weighted_mean_of_variates v;
  t_moment v;
  t_weighted_moment v;
  t_variance;
  t_lazy_variance;
  t_weighted_variance;
  t_lazy_weighted_variance;
  t_skewness;
  t_weighted_skewness;
  t_kurtosis;
  t_weighted_kurtosis;
  t_abstract_covariance;
  t_covariance v;
  t_weighted_covariance v;
  t_error_of_mean;
  t_error_of_immediate_mean;
  t_density;
  t_weighted_density;
  t_p_square_quantile;
  t_p_square_quantile_for_median;
  t_weighted_p_square_quantile;
  t_weighted_p_square_quantile_for_median;
  t_p_square_cumulative_distribution;
  t_weighted_p_square_cumulative_distribution;
  t_extended_p_square;
  t_weighted_extended_p_square;
  t_median;
  t_with_density_median;
  t_with_p_square_cumulative_distribution_median;
  t_weighted_median;
  t_with_density_weighted_median;
  t_with_p_square_cumulative_distribution_weighted_median;
  t_quantile;
  t_extended_p_square_quantile;
  t_extended_p_square_quantile_quadratic;
  t_weighted_extended_p_square_quantile;
  t_weighted_extended_p_square_quantile_quadratic;
  t_abstract_tail;
  t_tail s;
  t_abstract_tail_variate;
  t_tail_variate s v;
  t_abstract_tail_weights;
  t_tail_weights s;
  t_tail_quantile s;
  t_weighted_tail_quantile s;
  t_tail_mean;
  t_abstract_non_coherent_tail_mean;
  t_non_coherent_tail_mean s;
  t_non_coherent_weighted_tail_mean s;
  t_coherent_tail_mean s;
  t_abstract_absolute_tail_variate_means;
  t_abstract_relative_tail_variate_means;
  t_absolute_tail_variate_means s v;
  t_absolute_weighted_tail_variate_means s v;
  t_relative_tail_variate_means s v;
  t_relative_weighted_tail_variate_means s v;
  t_abstract_peaks_over_threshold;
  t_peaks_over_threshold s;
  t_peaks_over_threshold_prob s;
  t_weighted_peaks_over_threshold s;
  t_weighted_peaks_over_threshold_prob s;
  t_pot_quantile s;
  t_weighted_pot_quantile s;
  t_pot_tail_mean s;
  t_weighted_pot_tail_mean s;
  t_pot_quantile_prob s;
  t_weighted_pot_quantile_prob s;
  t_pot_tail_mean_prob s;
  t_weighted_pot_tail_mean_prob s;
  t_rolling_window_plus1;
  t_rolling_window;
  t_rolling_count;
  t_rolling_sum;
  t_rolling_moment v;
  t_rolling_mean;
  t_immediate_rolling_mean;
  t_lazy_rolling_mean;
  t_rolling_variance;
  t_immediate_rolling_variance;
  t_lazy_rolling_variance] t_count.

Lemma decode_ltag : forall t, decode (lindex t) (lside t) (lnum t) = t.
Proof.
  destruct t; try reflexivity;
    match goal with s : side |- _ => destruct s; reflexivity end.
Qed.

Lemma ltag_eqb_eq : forall a b, ltag_eqb a b = true <-> a = b.
Proof.
  intros a b; split; [| intros ->].
  - unfold ltag_eqb; rewrite !andb_true_iff, !Nat.eqb_eq, Bool.eqb_true_iff.
    intros [[E1 E2] E3]; rewrite <- (decode_ltag a), <- (decode_ltag b), E1, E2, E3.
    reflexivity.
  - unfold ltag_eqb; now rewrite !Nat.eqb_refl, Bool.eqb_reflx.
Qed.

Lemma library_laws : LibLaws Library.
Proof.
  constructor.
  - exact ltag_eqb_eq.
  - intros t; destruct t; reflexivity.
  - intros t; destruct t; reflexivity.
  - intros t d H; destruct t; cbn in H |- *;
      repeat (destruct H as [<- | H]; [cbn; lia |]); destruct H.
Qed.

(** ** Membership *)

Definition member_ok (W : bool) (t : ltag) : Prop :=
  laccepted W t = true /\ (W = true -> lweighted t = t).

Lemma weighted_twice : forall t, lweighted (lweighted t) = lweighted t.
Proof. intros t; destruct t; reflexivity. Qed.

Lemma accepted_weighted : forall t, laccepted true t = true -> laccepted true (lweighted t) = true.
Proof. intros t; destruct t; cbn; intros H; exact H. Qed.

Lemma accepted_deps : forall W t d, laccepted W t = true -> In d (ldeps t) ->
  laccepted W d = true \/ d = t_quantile /\ exists s, t = t_coherent_tail_mean s.
Proof.
  intros W t d H Hd; destruct W; destruct t; cbn in H; try discriminate H; cbn in Hd;
    repeat (destruct Hd as [<- | Hd];
            [first [left; reflexivity | right; split; [reflexivity | eexists; reflexivity]] |]);
    destruct Hd.
Qed.

Lemma coherent_top : forall t d s, In d (ldeps t) -> lweighted d <> t_coherent_tail_mean s /\ d <> t_coherent_tail_mean s.
Proof.
  intros t d s Hd; destruct t; cbn in Hd;
    repeat (destruct Hd as [<- | Hd]; [split; discriminate |]); destruct Hd.
Qed.

Lemma weighted_coherent : forall t s, lweighted t = t_coherent_tail_mean s -> t = t_coherent_tail_mean s.
Proof. intros t s H; destruct t; try discriminate H; exact H. Qed.

Section Sets.
Variable enum : fmap Library -> fmap Library.
Hypothesis Henum : Enumeration Library enum.
Variable W : bool.
Variable fs : list (request Library).

Let ts := make_tuple Library enum W fs.

Lemma tuple_ok : (forall t, In t ts -> laccepted W (fst t) = true) ->
  forall t, In t ts -> member_ok W (fst t).
Proof.
  intros Hts t H; split; [now apply Hts |].
  apply (tuple_only Library library_laws enum Henum W fs) in H.
  intros E; destruct H; subst W; apply weighted_twice.
Qed.

(** A set compiles if the listed features do, and if there is a quantile beside a
    coherent tail mean. *)
Lemma tuple_accepted :
  (forall t, In t (listed Library fs) -> laccepted W (fst t) = true) ->
  (forall t s, In t (listed Library fs) -> fst t = t_coherent_tail_mean s ->
     exists q, In q (listed Library fs) /\ lfeature (fst q) = t_quantile) ->
  forall t, In t ts -> laccepted W (fst t) = true.
Proof.
  intros Hfs Hq t Ht.
  assert (C : forall t, Called Library W fs t ->
     laccepted W (fst t) = true \/
     fst t = t_quantile /\ exists c s, In c (listed Library fs) /\ fst c = t_coherent_tail_mean s).
  { clear t Ht; intros t H.
    assert (G : (laccepted W (fst t) = true \/
       fst t = t_quantile /\ exists c s, In c (listed Library fs) /\ fst c = t_coherent_tail_mean s)
       /\ forall s, fst t = t_coherent_tail_mean s ->
            exists c, In c (listed Library fs) /\ fst c = t_coherent_tail_mean s).
    { induction H as [t H | t d H IH Hd].
      - split.
        + left; apply Hfs in H; destruct W; [now apply accepted_weighted | exact H].
        + intros s E; exists t; split; [exact H |].
          destruct W; [now apply weighted_coherent | exact E].
      - unfold fdeps in Hd; apply in_map_iff in Hd; destruct Hd as [c [<- Hc]].
        destruct IH as [IH IC]; split.
        + destruct IH as [IH | [IH _]]; [| rewrite IH in Hc; destruct Hc].
          destruct (accepted_deps _ _ c IH Hc) as [A | [-> [s Es]]].
          * left; destruct W; [now apply accepted_weighted | exact A].
          * right; split; [destruct W; reflexivity |].
            destruct (IC s Es) as [c [Hl Ec]]; now exists c, s.
        + intros s E; exfalso; destruct (coherent_top _ _ s Hc) as [N1 N2].
          destruct W; [now apply N1 | now apply N2]. }
    exact (proj1 G). }
  assert (Hc := tuple_only Library library_laws enum Henum W fs t Ht).
  destruct (C t Hc) as [A | [E [c [s [Hc1 Hc2]]]]]; [exact A | exfalso].
  destruct (Hq c s Hc1 Hc2) as [q [Hq1 Hq2]].
  (* the first listed quantile is in the set, and is the one *)
  assert (F : exists l1 u l2, listed Library fs = l1 ++ u :: l2 /\
                lfeature (fst u) = t_quantile /\
                forall w, In w l1 -> lfeature (fst w) <> t_quantile).
  { clear - Hq1 Hq2; induction (listed Library fs) as [| x l IH]; [destruct Hq1 |].
    destruct (ltag_eqb (lfeature (fst x)) t_quantile) eqn:Ex.
    - apply ltag_eqb_eq in Ex; exists [], x, l; repeat split; [exact Ex | intros w []].
    - destruct Hq1 as [-> | Hq1].
      + exfalso; rewrite Hq2 in Ex; discriminate Ex.
      + destruct (IH Hq1) as (l1 & u & l2 & -> & Eu & N).
        exists (x :: l1), u, l2; repeat split; [exact Eu |].
        intros w [<- | Hw]; [| now apply N].
        intros E; rewrite E in Ex; discriminate Ex. }
  destruct F as (l1 & u & l2 & El & Eu & N).
  assert (Hu : In (as_listed Library W u) ts).
  { apply (tuple_first Library library_laws enum Henum W fs l1 u l2 El).
    intros w Hw Ew; apply (N w Hw); rewrite <- Eu; exact Ew. }
  assert (Hacc : laccepted W (fst u) = true).
  { apply Hfs; rewrite El; apply in_or_app; right; now left. }
  assert (Et : t = as_listed Library W u).
  { apply (tuple_same Library library_laws enum Henum W fs); try assumption.
    unfold ffeature; rewrite E; transitivity (lfeature (fst u)); [now symmetry |].
    destruct W; [| reflexivity].
    symmetry; exact (ll_weighted Library library_laws (fst u)). }
  rewrite Et in E; destruct W.
  - change (lweighted (fst u) = t_quantile) in E.
    apply accepted_weighted in Hacc; rewrite E in Hacc; discriminate Hacc.
  - change (fst u = t_quantile) in E; rewrite E in Hacc; discriminate Hacc.
Qed.

End Sets.

(** ** What an accumulator that reads on push may come to need *)

Definition nf (a : ltag) : list ltag :=
  match a with
  | t_immediate_mean | t_immediate_mean_of_weights | t_immediate_mean_of_variates _ => [t_count]
  | t_immediate_weighted_mean | t_immediate_weighted_mean_of_variates _ => [t_sum_of_weights]
  | t_variance => [t_count; t_mean; t_sum]
  | t_weighted_variance => [t_count; t_mean; t_sum_of_weights; t_sum]
  | t_covariance v =>
      [t_count; t_mean; t_mean_of_variates v; t_sum; t_abstract_sum_of_variates]
  | t_weighted_covariance v =>
      [t_count; t_sum_of_weights; t_mean; t_mean_of_variates v; t_sum;
       t_abstract_weighted_sum_of_variates]
  | t_density => [t_count; t_min; t_max]
  | t_weighted_density => [t_count; t_sum_of_weights; t_min; t_max]
  | t_p_square_quantile | t_p_square_quantile_for_median
  | t_p_square_cumulative_distribution | t_extended_p_square => [t_count]
  | t_weighted_p_square_quantile | t_weighted_p_square_quantile_for_median
  | t_weighted_p_square_cumulative_distribution | t_weighted_extended_p_square =>
      [t_count; t_sum_of_weights]
  | t_rolling_sum => [t_rolling_window_plus1]
  | t_rolling_moment _ | t_rolling_mean | t_immediate_rolling_mean =>
      [t_rolling_window_plus1; t_rolling_count]
  | t_rolling_variance | t_immediate_rolling_variance =>
      [t_rolling_window_plus1; t_rolling_count; t_rolling_mean]
  | _ => []
  end.

Lemma nf_direct : forall a d, lon_push a = true -> In d (ldeps a) -> In (lfeature d) (nf a).
Proof.
  intros a d Ha Hd; destruct a; try discriminate Ha; cbn in Hd;
    repeat (destruct Hd as [<- | Hd]; [cbn; tauto |]); destruct Hd.
Qed.

Lemma nf_closed : forall W a u d, lon_push a = true -> member_ok W a -> member_ok W u ->
  (rolling_variance_kind a = true -> u <> t_lazy_rolling_mean) ->
  In (lfeature u) (nf a) -> In d (ldeps u) -> In (lfeature d) (nf a).
Proof.
  intros W a u d Ha [A1 A2] [U1 U2] Hr Hu Hd.
  destruct a; try discriminate Ha; destruct u; cbn in Hd; try (destruct Hd; fail);
  destruct W; try discriminate A1; try discriminate U1;
  try (specialize (A2 eq_refl); discriminate A2);
  try (specialize (U2 eq_refl); discriminate U2);
  cbn in Hu; repeat (destruct Hu as [Hu | Hu]; [try discriminate Hu |]);
  try (destruct Hu; fail);
  try (exfalso; exact (Hr eq_refl eq_refl));
  repeat (destruct Hd as [<- | Hd]; [cbn; try tauto; injection Hu as <-; tauto |]); destruct Hd.
Qed.

Definition lbases (p : ltag) : list ltag := bases Library (S (ldepth (lfeature p))) p.

Lemma nf_below : forall W p a f, lon_push a = true -> member_ok W p -> member_ok W a ->
  In (lfeature a) (lbases p) -> In f (nf a) -> In f (lbases p).
Proof.
  intros W p a f Ha [P1 P2] [A1 A2] Hp Hf.
  destruct a; try discriminate Ha; destruct p; vm_compute in Hp;
  repeat (destruct Hp as [Hp | Hp]; [try discriminate Hp |]); try (destruct Hp; fail);
  destruct W; try discriminate A1; try discriminate P1;
  try (specialize (A2 eq_refl); discriminate A2);
  try (specialize (P2 eq_refl); discriminate P2);
  cbn in Hf; repeat (destruct Hf as [<- | Hf]; [vm_compute; tauto |]); destruct Hf.
Qed.

Lemma nf_own : forall a f, lon_push a = true -> In f (nf a) -> In f (lbases a).
Proof.
  intros a f Ha Hf; destruct a; try discriminate Ha; cbn in Hf;
    repeat (destruct Hf as [<- | Hf]; [vm_compute; tauto |]); destruct Hf.
Qed.

Section Order.
Variable enum : fmap Library -> fmap Library.
Hypothesis Henum : Enumeration Library enum.
Variable W : bool.
Variable fs : list (request Library).
Let ts := make_tuple Library enum W fs.
Hypothesis Hts : forall t, In t ts -> laccepted W (fst t) = true.

Hypothesis Hroll : forall a u, In a ts -> In u ts -> rolling_variance_kind (fst a) = true ->
  fst u <> t_lazy_rolling_mean.

Lemma needs_nf : forall a b, lon_push (fst a) = true -> Needs Library ts a b -> b <> a ->
  In (ffeature Library b) (nf (fst a)).
Proof.
  intros a b Ha H Hne.
  assert (G : forall c, In a ts -> In (ffeature Library c) (nf (fst a)) -> Needs Library ts c b ->
              In (ffeature Library b) (nf (fst a))).
  { intros c Hia Hc Hn; clear H Hne; revert Hc.
    induction Hn as [c Hc | c u b Hc Hu Hr Hn IH]; intros Hf; [exact Hf |].
    apply IH; unfold Reads in Hr; apply in_map_iff in Hr; destruct Hr as [d [<- Hd]].
    apply (nf_closed W (fst a) (fst c)); try assumption.
    - now apply (tuple_ok enum Henum W fs Hts).
    - now apply (tuple_ok enum Henum W fs Hts).
    - intros E; now apply (Hroll a). }
  destruct H as [a Ha' | a c b Ha' Hc Hr Hn]; [now elim Hne |].
  apply (G c); try assumption.
  unfold Reads in Hr; apply in_map_iff in Hr; destruct Hr as [d [<- Hd]].
  now apply nf_direct.
Qed.

Lemma library_push_ordered : PushOrdered Library lon_push ts.
Proof.
  intros a b Ha Hp HN Hne.
  assert (Hb : In b ts) by (clear - HN; induction HN; assumption).
  apply (tuple_respects Library library_laws enum Henum W fs
          (fun x y => lon_push (fst x) = true /\ In (ffeature Library y) (nf (fst x)))).
  - intros p x y Hip Hx Hy [Ox Nx] D.
    unfold dependent; apply (mem_In Library library_laws).
    change (In (ffeature Library y) (lbases (fst p))).
    destruct D as [-> | D]; [now apply nf_own |].
    apply (nf_below W (fst p) (fst x)); try assumption.
    + now apply (tuple_ok enum Henum W fs Hts).
    + now apply (tuple_ok enum Henum W fs Hts).
    + unfold dependent in D; now apply (mem_In Library library_laws) in D.
  - assumption.
  - assumption.
  - split; [assumption | now apply needs_nf].
Qed.
End Order.

(** ** Everything consulted is there *)

(** Consulted directly, or through a dependency all of whose implementations bring
    it along. *)
Lemma consults_chain : forall W a d, member_ok W a -> In d (lconsults a) ->
  In (lfeature d) (map lfeature (ldeps a)) \/
  exists c, In c (ldeps a) /\ forall u, member_ok W u -> lfeature u = lfeature c ->
    In (lfeature d) (map lfeature (ldeps u)).
Proof.
  intros W a d [A1 A2] Hd; unfold lconsults in Hd; apply in_app_or in Hd.
  destruct Hd as [Hd | Hd]; [left; now apply in_map |].
  destruct a; cbn in Hd; try (destruct Hd; fail); destruct W; try discriminate A1;
  try (specialize (A2 eq_refl); discriminate A2);
  repeat (destruct Hd as [<- | Hd]; [right |]); try (destruct Hd; fail);
  match goal with |- exists _, In _ (ldeps ?t) /\ _ =>
    let l := eval cbn in (ldeps t) in
    first
    [ match l with ?c :: _ => exists c; split; [cbn; tauto |] end;
      intros u [U1 U2] E; destruct u; try discriminate E;
      try discriminate U1; try (specialize (U2 eq_refl); discriminate U2); cbn; tauto
    | match l with _ :: ?c :: _ => exists c; split; [cbn; tauto |] end;
      intros u [U1 U2] E; destruct u; try discriminate E;
      try discriminate U1; try (specialize (U2 eq_refl); discriminate U2); cbn; tauto
    | match l with _ :: _ :: ?c :: _ => exists c; split; [cbn; tauto |] end;
      intros u [U1 U2] E; destruct u; try discriminate E;
      try discriminate U1; try (specialize (U2 eq_refl); discriminate U2); cbn; tauto ]
  end.
Qed.

Section Supply.
Variable enum : fmap Library -> fmap Library.
Hypothesis Henum : Enumeration Library enum.
Variable W : bool.
Variable fs : list (request Library).
Let ts := make_tuple Library enum W fs.
Hypothesis Hts : forall t, In t ts -> laccepted W (fst t) = true.

Lemma library_supplied : Supplied Library lconsults ts.
Proof.
  assert (P : forall a d, In a ts -> In (lfeature d) (map lfeature (ldeps (fst a))) ->
            exists u, In u ts /\ Reads Library a u /\ ffeature Library u = lfeature d).
  { intros a d Ha Hd; apply in_map_iff in Hd; destruct Hd as [c [E Hc]].
    destruct (tuple_closed Library library_laws enum Henum W fs a c Ha Hc) as [u [Hu Eu]].
    exists u; split; [exact Hu | split]; [| now rewrite Eu].
    unfold Reads; rewrite Eu; now apply (in_map (feature Library)). }
  intros a d Ha Hd.
  destruct (consults_chain W (fst a) d (tuple_ok enum Henum W fs Hts a Ha) Hd)
    as [H | [c [Hc H]]].
  - destruct (P a d Ha H) as [u [Hu [Hr E]]]; exists u; split; [| split].
    + apply (needs_read Library ts a u u); try assumption; now constructor.
    + intros ->; apply (reads_dependent Library library_laws) in Hr.
      apply (dependent_depth Library library_laws) in Hr; lia.
    + exact E.
  - destruct (P a c Ha (in_map lfeature _ _ Hc)) as [u [Hu [Hr E]]].
    specialize (H (fst u) (tuple_ok enum Henum W fs Hts u Hu) E).
    destruct (P u d Hu H) as [v [Hv [Hr' E']]]; exists v; split; [| split].
    + apply (needs_read Library ts a u v); try assumption.
      apply (needs_read Library ts u v v); try assumption; now constructor.
    + intros ->; apply (reads_dependent Library library_laws) in Hr.
      apply (dependent_depth Library library_laws) in Hr.
      apply (reads_dependent Library library_laws) in Hr'.
      apply (dependent_depth Library library_laws) in Hr'; lia.
    + exact E'.
Qed.
End Supply.
