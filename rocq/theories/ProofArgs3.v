(** Argument packs are what the arguments say (for C86). *)
From Coq Require Import List Bool Arith Lia.
From Verif Require Import Num ModelBasic ModelPSquare ModelTail ModelFramework SpecFramework ModelLibrary ModelSets ModelRollingSets ModelWhole ModelArgs SpecArgs.
From Verif Require Import ProofFramework ProofFrameworkRef ProofFrameworkRun ProofLibrary ProofArgs ProofArgs2.
Import ListNotations.

Lemma side_eqb_iff a b : side_eqb a b = true <-> a = b.
Proof. destruct a, b; cbn; split; congruence. Qed.
Lemma keyword_eqb_iff a b : keyword_eqb a b = true <-> a = b.
Proof.
  destruct a, b; cbn; rewrite ?Nat.eqb_eq, ?side_eqb_iff; split; congruence.
Qed.
Lemma keyword_cases (a b : keyword) : a = b \/ a <> b.
Proof. destruct (keyword_eqb a b) eqn:E; [left; now apply keyword_eqb_iff | right; intros F; apply keyword_eqb_iff in F; congruence]. Qed.
Lemma keyword_eqb_refl a : keyword_eqb a a = true. Proof. now apply keyword_eqb_iff. Qed.
Lemma keyword_eqb_neq a b : a <> b -> keyword_eqb a b = false.
Proof. intros H. destruct (keyword_eqb a b) eqn:E; [| reflexivity]. apply keyword_eqb_iff in E. contradiction. Qed.

Lemma distinct_iff ks : distinct ks = true <-> NoDup ks.
Proof.
  induction ks as [|k ks IH]; cbn; [split; [constructor | reflexivity] |].
  rewrite andb_true_iff, negb_true_iff, IH, NoDup_cons_iff. apply and_iff_compat_r. split.
  - intros H Hin. assert (existsb (keyword_eqb k) ks = true); [| congruence]. apply existsb_exists. exists k. split; [exact Hin | apply keyword_eqb_refl].
  - intros H. destruct (existsb _ ks) eqn:E; [| reflexivity]. apply existsb_exists in E as (k' & Hin & E). apply keyword_eqb_iff in E. subst. contradiction.
Qed.

Section Packs.
Variable K : Num.
Local Notation actual := (actual K).
Local Notation args := (list (keyword * argument K)).

Definition pair_of (a : actual) : keyword * argument K := match a with Positional v => (k_sample, v) | Named k v => (k, v) end.
Lemma pair_key l : map fst (map pair_of l) = map (keyword_of K) l.
Proof. rewrite map_map. apply map_ext. now intros []. Qed.

Lemma append_is l : append K l = if forallb (fun a => match a with Named _ _ => true | _ => false end) l then Some (map pair_of l) else None.
Proof. induction l as [|[v|k v] l IH]; cbn; [reflexivity | reflexivity |]. rewrite IH. now destruct (forallb _ l). Qed.

Lemma arguments_iff l ps : arguments K l = Some ps <-> legal K l /\ ps = (k_accumulator, This) :: map pair_of l.
Proof.
  assert (N : forall m : list actual, forallb (fun a => match a with Named _ _ => true | _ => false end) m = true <-> (forall i v, nth_error m i <> Some (Positional v))).
  { intros m. rewrite forallb_forall. split.
    - intros H i v E. apply nth_error_In in E. now apply H in E.
    - intros H [v|k v] Hin; [| reflexivity]. apply In_nth_error in Hin as [i E]. now apply H in E. }
  assert (G : forall b, (if Nat.leb (length l) max_args && distinct (k_accumulator :: map (keyword_of K) l) then Some ((k_accumulator, This) :: b) else None) = Some ps <->
     (ps = (k_accumulator, This) :: b /\ NoDup (map (keyword_of K) l) /\ ~ In k_accumulator (map (keyword_of K) l) /\ (length l <= 15)%nat)).
  { intros b. destruct (_ && _) eqn:E.
    - apply andb_true_iff in E as [E1 E2]. apply Nat.leb_le in E1. apply distinct_iff in E2. apply NoDup_cons_iff in E2 as [E2 E3]. split.
      + intros H. injection H as <-. repeat split; assumption.
      + intros (-> & _). reflexivity.
    - split; [discriminate |]. intros (_ & H1 & H2 & H3). apply andb_false_iff in E as [E|E]; [apply Nat.leb_gt in E; unfold max_args in E; lia |].
      assert (distinct (k_accumulator :: map (keyword_of K) l) = true); [| congruence]. apply distinct_iff. now constructor. }
  assert (D : forall b, map fst b = map (keyword_of K) l ->
    (let ps0 := (k_accumulator, This) :: b in if Nat.leb (length l) max_args && distinct (map fst ps0) then Some ps0 else None) = Some ps <->
    (ps = (k_accumulator, This) :: b /\ NoDup (map (keyword_of K) l) /\ ~ In k_accumulator (map (keyword_of K) l) /\ (length l <= 15)%nat)).
  { intros b E. cbv zeta. cbn [map fst]. rewrite E. apply G. }
  clear G. unfold arguments, legal. destruct l as [|[v|k v] l].
  - cbn [append]. rewrite (D []) by reflexivity. split; [intros (-> & H) | intros ((_ & H) & ->)]; (split; [| assumption || reflexivity]); [split; [| exact H]; intros [|i] v; discriminate | reflexivity].
  - rewrite append_is. destruct (forallb _ l) eqn:E.
    + rewrite (D ((k_sample, v) :: map pair_of l)) by (cbn [map fst keyword_of]; now rewrite pair_key). assert (E' := proj1 (N _) E). split.
      * intros (-> & H). split; [| reflexivity]. split; [| exact H]. intros [|i] w; [reflexivity |]. cbn. intros F. now apply E' in F.
      * intros ((_ & H) & ->). split; [reflexivity | exact H].
    + split; [discriminate |]. intros ((H & _) & _). assert (forallb (fun a : actual => match a with Named _ _ => true | _ => false end) l = true); [| congruence].
      apply (proj2 (N _)). intros i w F. assert (S i = O) by (apply (H (S i) w); exact F). discriminate.
  - rewrite append_is. destruct (forallb _ _) eqn:E.
    + rewrite D by (apply pair_key). assert (E' := proj1 (N _) E). split.
      * intros (-> & H). split; [| reflexivity]. split; [| exact H]. intros i w F. now apply E' in F.
      * intros ((_ & H) & ->). split; [reflexivity | exact H].
    + split; [discriminate |]. intros ((H & _) & _). assert (forallb (fun a : actual => match a with Named _ _ => true | _ => false end) (Named k v :: l) = true); [| congruence].
      apply (proj2 (N _)). intros [|i] w F; [discriminate |]. assert (S i = O) by (apply (H (S i) w); exact F). discriminate.
Qed.

Lemma legal_given l k v : legal K l -> (given K l k v <-> In (k, v) (map pair_of l)).
Proof.
  intros (H & _). unfold given. split.
  - intros [Hin|(-> & r & ->)]; [| now left]. apply (in_map pair_of) in Hin. exact Hin.
  - intros Hin. apply in_map_iff in Hin as ([w|k' w] & E & Hin); cbn in E; injection E as -> ->; [| now left].
    right. split; [reflexivity |]. apply In_nth_error in Hin as [i E]. assert (i = O) by (apply (H i v E)). subst i.
    destruct l as [|a l]; [discriminate |]. cbn in E. injection E as ->. now exists l.
Qed.

Lemma lookup_in k (ps : args) v : NoDup (map fst ps) -> (lookup K k ps = Some v <-> In (k, v) ps).
Proof.
  induction ps as [|[k' v'] ps IH]; cbn; intros N; [split; [discriminate | contradiction] |]. apply NoDup_cons_iff in N as [N1 N2].
  destruct (keyword_eqb k k') eqn:E.
  - apply keyword_eqb_iff in E. subst k'. split; [intros H; injection H as ->; now left |]. intros [H|H]; [injection H as ->; reflexivity |].
    exfalso. apply N1. apply (in_map fst) in H. exact H.
  - rewrite (IH N2). split; [now right |]. intros [H|H]; [| exact H]. injection H as -> ->. rewrite keyword_eqb_refl in E. discriminate.
Qed.

Lemma lookup_given l ps k v : arguments K l = Some ps -> k <> k_accumulator -> (lookup K k ps = Some v <-> given K l k v).
Proof.
  intros E Hk. apply arguments_iff in E as (Hl & ->). rewrite (legal_given l k v Hl). cbn [lookup]. rewrite (keyword_eqb_neq _ _ Hk).
  apply lookup_in. rewrite pair_key. apply Hl.
Qed.

Lemma lookup_same l l' ps ps' k : arguments K l = Some ps -> arguments K l' = Some ps' -> k <> k_accumulator ->
  (forall v, given K l k v <-> given K l' k v) -> lookup K k ps = lookup K k ps'.
Proof.
  intros E E' Hk H. assert (G : forall v, lookup K k ps = Some v <-> lookup K k ps' = Some v).
  { intros v. rewrite (lookup_given l ps k v E Hk), (lookup_given l' ps' k v E' Hk). apply H. }
  destruct (lookup K k ps) as [v|]; [symmetry; now apply G |]. destruct (lookup K k ps') as [v|]; [now apply G | reflexivity].
Qed.

Lemma has_iff l ps k kd : arguments K l = Some ps -> k <> k_accumulator ->
  (ModelArgs.has K ps (k, kd) = true <-> exists v, given K l k v /\ of_kind K kd v).
Proof.
  intros E Hk. unfold ModelArgs.has. cbn [fst snd]. split.
  - destruct (lookup K k ps) as [v|] eqn:G; [| discriminate]. apply (lookup_given l ps k v E Hk) in G. intros H. exists v. split; [exact G |].
    destruct kd, v; try discriminate; exact I.
  - intros (v & G & Q). apply (lookup_given l ps k v E Hk) in G. rewrite G. destruct kd, v; try contradiction Q; reflexivity.
Qed.

Definition usual (needs : ltag -> list (keyword * kind)) : Prop := forall t kd, ~ In (k_accumulator, kd) (needs t).
Lemma op_usual : usual op_needs.
Proof. intros t kd H. destruct t; cbn in H; intuition discriminate. Qed.
Lemma ctor_usual : usual ctor_needs.
Proof. intros t kd H. destruct t; cbn in H; intuition discriminate. Qed.
Lemma takes_usual : usual ctor_takes.
Proof. intros t kd H. destruct t; cbn in H; intuition discriminate. Qed.
Lemma wanted_usual needs ts k kd : usual needs -> wanted needs ts k kd -> k <> k_accumulator.
Proof. intros U (t & _ & H) ->. now apply U in H. Qed.

Lemma there_iff needs ts l ps : usual needs -> arguments K l = Some ps -> (all_there K needs ts ps = true <-> complete K needs ts l).
Proof.
  intros U E. unfold all_there. rewrite forallb_forall. split.
  - intros H k kd (t & Ht & Hk). apply (has_iff l ps); [exact E | intros ->; now apply U in Hk |]. specialize (H t Ht). rewrite forallb_forall in H. now apply H.
  - intros H t Ht. apply forallb_forall. intros [k kd] Hk. apply (has_iff l ps); [exact E | intros ->; now apply U in Hk |]. apply H. now exists t.
Qed.
Lemma fit_iff takes ts l ps : usual takes -> arguments K l = Some ps -> (all_fit K takes ts ps = true <-> well_typed K takes ts l).
Proof.
  intros U E. unfold all_fit. rewrite forallb_forall.
  assert (F : forall k kd, k <> k_accumulator -> (fits K ps (k, kd) = true <-> forall v, given K l k v -> of_kind K kd v)).
  { intros k kd Hk. unfold fits. cbn [fst]. destruct (lookup K k ps) as [w|] eqn:G.
    - apply (lookup_given l ps k w E Hk) in G as G'. rewrite (has_iff l ps k kd E Hk). split.
      + intros (v & Gv & Q) u Gu. apply (lookup_given l ps k _ E Hk) in Gv, Gu. congruence.
      + intros H. exists w. split; [exact G' | now apply H].
    - split; [| reflexivity]. intros _ v Gv. apply (lookup_given l ps k _ E Hk) in Gv. congruence. }
  split.
  - intros H k kd v (t & Ht & Hk). specialize (H t Ht). rewrite forallb_forall in H. apply H in Hk as Hk'. apply F; [intros ->; now apply U in Hk | exact Hk'].
  - intros H t Ht. apply forallb_forall. intros [k kd] Hk. apply F; [intros ->; now apply U in Hk |]. intros v. apply H. now exists t.
Qed.
Lemma biased_iff l ps : arguments K l = Some ps -> (biased K ps = false <-> unbiased K l).
Proof.
  intros E. assert (E' := E). apply arguments_iff in E' as (Hl & ->). unfold biased. cbn [existsb fst orb]. split.
  - intros H v n. repeat split; intros G; apply (legal_given l _ v Hl) in G;
      (enough (existsb (fun p : keyword * argument K => match fst p with k_sample | k_weight | k_variate _ => true | _ => false end) (map pair_of l) = true) by congruence);
      apply existsb_exists; eexists; (split; [exact G | reflexivity]).
  - intros H. destruct (existsb _ _) eqn:X; [| reflexivity]. apply existsb_exists in X as ([k v] & Hin & X). apply (legal_given l k v Hl) in Hin. cbn in X.
    destruct k; try discriminate X; exfalso.
    + destruct (H v O) as (Q & _). contradiction.
    + destruct (H v O) as (_ & Q & _). contradiction.
    + destruct (H v n) as (_ & _ & Q). contradiction.
Qed.

(** Same values, same fields. *)
Lemma pack_agree ts ps ps' : (forall k kd, wanted op_needs ts k kd -> lookup K k ps = lookup K k ps') -> PR K ts (to_pack K ps) (to_pack K ps').
Proof.
  intros H k kd Hw. assert (E := H k kd Hw). unfold field, to_pack, get_scalar, get_vector. destruct k; cbn; try reflexivity; rewrite E; reflexivity.
Qed.
Lemma tail_cache_agree ts ps ps' s kd : (forall k kd, wanted ctor_takes ts k kd -> lookup K k ps = lookup K k ps') ->
  wanted ctor_takes ts (k_cache_size s) kd -> tail_cache K ts ps = tail_cache K ts ps'.
Proof.
  intros H ([t b] & Ht & Hk). unfold tail_cache, get_size. cbn [fst] in Hk.
  assert (Es : t = t_tail s) by (destruct t; cbn in Hk; intuition congruence). subst t.
  match goal with |- context [existsb ?g ts] => destruct (existsb g ts) eqn:X end.
  - apply existsb_exists in X as (u & Hu & X). rewrite (H (k_cache_size on_left) size); [reflexivity |]. exists u. split; [exact Hu |].
    destruct u as [u d]. cbn [fst] in *. destruct u; try discriminate X. match type of X with (if ?q then _ else _) = _ => destruct q end; [cbn; now left | discriminate X].
  - destruct s.
    + assert (existsb (fun t => match fst t with t_tail on_left => true | _ => false end) ts = true); [| congruence].
      apply existsb_exists. exists (t_tail on_left, b). split; [exact Ht | reflexivity].
    + rewrite (H (k_cache_size on_right) size); [reflexivity |]. exists (t_tail on_right, b). split; [exact Ht |]. cbn; now left.
Qed.
Lemma args_agree P ts ps ps' : (forall k kd, wanted ctor_takes ts k kd -> lookup K k ps = lookup K k ps') ->
  forall k kd, wanted ctor_takes ts k kd -> parameter K (to_args K P ts ps) k = parameter K (to_args K P ts ps') k.
Proof.
  intros H k kd Hw. assert (E := H k kd Hw). unfold parameter, to_args. destruct k; cbn; try reflexivity; unfold get_scalar, get_vector, get_size; try (rewrite E; reflexivity).
  now rewrite (tail_cache_agree ts ps ps' s kd H Hw).
Qed.
End Packs.
