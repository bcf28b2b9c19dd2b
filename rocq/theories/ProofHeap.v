(** The binary heap keeps the promises of the standard. *)
From Coq Require Import List Arith Bool Lia Permutation Sorted.
From Verif Require Import ModelTail SpecTail SpecMemory ModelHeap ProofTail.
Import ListNotations.

Lemma set_length l i v : length (set l i v) = length l.
Proof. revert i; induction l as [|a l IH]; intros [|i]; cbn; auto. Qed.
Lemma get_set_same l i v : i < length l -> get (set l i v) i = v.
Proof. unfold get. revert i; induction l as [|a l IH]; intros [|i] H; cbn in *; try lia; auto. apply IH; lia. Qed.
Lemma get_set_other l i j v : i <> j -> get (set l i v) j = get l j.
Proof. unfold get. revert i j; induction l as [|a l IH]; intros [|i] [|j] H; cbn; auto; try congruence. Qed.
Lemma get_set l i j v : i < length l -> get (set l i v) j = if Nat.eqb i j then v else get l j.
Proof. intros H. destruct (Nat.eqb_spec i j) as [<-|N]; [now apply get_set_same|now apply get_set_other]. Qed.

Lemma set_perm l i : i < length l -> exists r, Permutation l (get l i :: r) /\ forall w, Permutation (set l i w) (w :: r).
Proof.
  revert i; induction l as [|a l IH]; intros [|i] H; cbn in H; try lia.
  - exists l. split; [reflexivity|]. intros w. reflexivity.
  - destruct (IH i ltac:(lia)) as (r & P & Q). exists (a :: r). split.
    + change (get (a :: l) (S i)) with (get l i). rewrite perm_swap. now constructor.
    + intros w. cbn [set]. rewrite (Q w). apply perm_swap.
Qed.
(** Moving the hole from [i] to [j]. *)
Lemma move_perm l i j v : i < length l -> j < length l -> i <> j ->
  Permutation (set (set l i (get l j)) j v) (set l i v).
Proof.
  intros Hi Hj N. destruct (set_perm l i Hi) as (r & P & Q).
  destruct (set_perm (set l i (get l j)) j ltac:(now rewrite set_length)) as (r' & P' & Q').
  rewrite (Q' v). rewrite (Q v). rewrite get_set_other in P' by exact N. rewrite (Q (get l j)) in P'.
  apply Permutation_cons_inv in P'. now rewrite P'.
Qed.

Lemma parent_lt i : 0 < i -> parent i < i.
Proof. intros H. unfold parent. destruct i as [|i]; [lia|]. replace (S i - 1) with i by lia. pose proof (Nat.div2_decr i i ltac:(lia)). lia. Qed.
Lemma parent_child c h : 0 < c -> (parent c = h <-> c = 2 * h + 1 \/ c = 2 * h + 2).
Proof.
  intros H. unfold parent. rewrite Nat.div2_div. split.
  - intros <-. pose proof (Nat.div_mod (c - 1) 2 ltac:(lia)). pose proof (Nat.mod_upper_bound (c - 1) 2 ltac:(lia)). lia.
  - intros [->| ->].
    + replace (2 * h + 1 - 1) with (h * 2) by lia. apply Nat.div_mul. lia.
    + replace (2 * h + 2 - 1) with (1 + h * 2) by lia. rewrite Nat.div_add by lia. reflexivity.
Qed.

(** Heap order in terms of [get]. *)
Definition ordered (comp : nat -> nat -> bool) (l : list nat) : Prop :=
  forall i, 0 < i -> i < length l -> comp (get l (parent i)) (get l i) = false.
Lemma nth_error_get l i a : nth_error l i = Some a <-> i < length l /\ get l i = a.
Proof.
  unfold get. split.
  - intros E. split; [apply nth_error_Some; congruence|]. now apply nth_error_nth.
  - intros [H <-]. now apply nth_error_nth'.
Qed.
Lemma ordered_heap comp l : ordered comp l <-> IsHeap comp l.
Proof.
  split.
  - intros O i a b Hi Ha Hb. apply nth_error_get in Ha, Hb. destruct Ha as [_ <-], Hb as [Hl <-]. now apply O.
  - intros I i Hi Hl. apply (I i _ _ Hi); apply nth_error_get; (split; [|reflexivity]); [|exact Hl].
    fold (parent i). pose proof (parent_lt i Hi). lia.
Qed.

Section Order.
Variable comp : nat -> nat -> bool.
Hypothesis SW : StrictWeak comp.

Lemma asym a b : comp a b = true -> comp b a = false.
Proof.
  intros H. destruct (comp b a) eqn:E; auto. pose proof (sw_trans comp SW _ _ _ H E) as F. now rewrite (sw_irrefl comp SW) in F.
Qed.
(** Order away from the hole, and across it. *)
Record gap (l : list nat) (h : nat) : Prop := {
  g_in : h < length l;
  g_away : forall i, 0 < i -> i < length l -> i <> h -> parent i <> h -> comp (get l (parent i)) (get l i) = false;
  g_across : forall c, 0 < c -> c < length l -> parent c = h -> 0 < h -> comp (get l (parent h)) (get l c) = false }.
Definition below (l : list nat) (h v : nat) : Prop :=
  forall c, 0 < c -> c < length l -> parent c = h -> comp v (get l c) = false.

Lemma fill l h v : gap l h -> below l h v -> (0 < h -> comp (get l (parent h)) v = false) -> ordered comp (set l h v).
Proof.
  intros [Hh A _] B P i Hi Hl. rewrite set_length in Hl. rewrite !get_set by exact Hh.
  destruct (Nat.eqb_spec h i) as [<-|N1].
  - destruct (Nat.eqb_spec h (parent h)) as [E|_]; [pose proof (parent_lt h Hi); lia|]. auto.
  - destruct (Nat.eqb_spec h (parent i)) as [E|N2]; [now apply B|]. apply A; auto.
Qed.
Lemma sift_up_ok fuel : forall l h v, h <= fuel -> gap l h -> below l h v ->
  ordered comp (sift_up comp fuel l h v) /\ Permutation (sift_up comp fuel l h v) (set l h v).
Proof.
  induction fuel as [|fuel IH]; intros l h v Hf G B; cbn [sift_up].
  - split; [|reflexivity]. apply fill; auto. lia.
  - destruct (0 <? h) eqn:E0; cbn [andb].
    2: { apply Nat.ltb_ge in E0. split; [|reflexivity]. apply fill; auto. lia. }
    apply Nat.ltb_lt in E0. destruct (comp (get l (parent h)) v) eqn:E; [|split; [apply fill; auto|reflexivity]].
    pose proof (parent_lt h E0) as Hp. destruct G as [Hh A X].
    assert (G' : gap (set l h (get l (parent h))) (parent h)).
    { constructor; rewrite ?set_length; [lia| |].
      - intros i Hi Hl N1 N2. rewrite !get_set by exact Hh.
        destruct (Nat.eqb_spec h i) as [<-|N]; [congruence|].
        destruct (Nat.eqb_spec h (parent i)) as [Ei|N3]; [apply X; auto|apply A; auto].
      - intros c Hc Hl Pc H0. rewrite !get_set by exact Hh.
        pose proof (parent_lt (parent h) H0) as Hpp.
        destruct (Nat.eqb_spec h (parent (parent h))) as [F|_]; [lia|].
        assert (Q : comp (get l (parent (parent h))) (get l (parent h)) = false).
        { apply A; try lia. }
        destruct (Nat.eqb_spec h c) as [<-|N]; [exact Q|].
        apply (sw_negtrans comp SW _ _ _ Q). rewrite <- Pc. apply A; auto; lia. }
    assert (B' : below (set l h (get l (parent h))) (parent h) v).
    { intros c Hc Hl Pc. rewrite set_length in Hl. rewrite get_set by exact Hh.
      destruct (Nat.eqb_spec h c) as [<-|N]; [now apply asym|].
      destruct (comp v (get l c)) eqn:F; auto. exfalso.
      pose proof (sw_trans comp SW _ _ _ E F) as F'. rewrite <- Pc in F'. rewrite A in F'; auto; [discriminate|lia]. }
    destruct (IH _ (parent h) v ltac:(lia) G' B') as [O P]. split; [exact O|].
    rewrite P. apply move_perm; lia.
Qed.
Lemma sift_down_ok fuel : forall l h, length l <= fuel + h -> gap l h ->
  let '(l', h') := sift_down comp fuel l h in
  gap l' h' /\ length l' = length l /\ (forall c, 0 < c -> c < length l' -> parent c <> h')
  /\ forall v, Permutation (set l' h' v) (set l h v).
Proof.
  induction fuel as [|fuel IH]; intros l h Hf G; cbn [sift_down].
  - exfalso. destruct G as [Hh _ _]. lia.
  - destruct (2 * h + 2 <? length l) eqn:E.
    + apply Nat.ltb_lt in E.
      set (m := if comp (get l (2 * h + 2)) (get l (2 * h + 1)) then 2 * h + 1 else 2 * h + 2).
      assert (Pm : parent m = h /\ 0 < m /\ m < length l /\ h < m
                   /\ forall c, 0 < c -> c < length l -> parent c = h -> comp (get l m) (get l c) = false).
      { assert (Hm : m = 2 * h + 1 \/ m = 2 * h + 2) by (unfold m; destruct (comp _ _); auto).
        split; [apply parent_child; lia|]. split; [lia|]. split; [lia|]. split; [lia|].
        intros c Hc Hl Pc. apply parent_child in Pc; [|exact Hc]. unfold m.
        destruct (comp (get l (2 * h + 2)) (get l (2 * h + 1))) eqn:F; destruct Pc as [->| ->];
          try apply (sw_irrefl comp SW); [now apply asym|exact F]. }
      clearbody m. destruct Pm as (Pm & Hm & Hml & Hhm & M). destruct G as [Hh A X].
      assert (G' : gap (set l h (get l m)) m).
      { constructor; rewrite ?set_length; [exact Hml| |].
        - intros i Hi Hl N1 N2. rewrite !get_set by exact Hh.
          destruct (Nat.eqb_spec h i) as [<-|N].
          + destruct (Nat.eqb_spec h (parent h)) as [F|_]; [pose proof (parent_lt h Hi); lia|]. now apply X.
          + destruct (Nat.eqb_spec h (parent i)) as [F|N3]; [now apply M|apply A; auto].
        - intros c Hc Hl Pc _. rewrite Pm, !get_set by exact Hh. rewrite Nat.eqb_refl.
          destruct (Nat.eqb_spec h c) as [<-|N]; [pose proof (parent_lt h Hc); lia|].
          rewrite <- Pc. apply A; auto; lia. }
      specialize (IH (set l h (get l m)) m). rewrite set_length in IH. specialize (IH ltac:(lia) G').
      destruct (sift_down comp fuel (set l h (get l m)) m) as [l' h']. destruct IH as (I1 & I2 & I3 & I4).
      split; [exact I1|]. split; [exact I2|]. split; [exact I3|]. intros v. rewrite I4. apply move_perm; lia.
    + apply Nat.ltb_ge in E. destruct (2 * h + 1 <? length l) eqn:E1.
      * apply Nat.ltb_lt in E1. set (m := 2 * h + 1) in *.
        assert (Pm : parent m = h) by (apply parent_child; lia).
        destruct G as [Hh A X].
        assert (only : forall c, 0 < c -> c < length l -> parent c = h -> c = m).
        { intros c Hc Hl Pc. apply parent_child in Pc; [|exact Hc]. lia. }
        split; [|split; [apply set_length|split]].
        -- constructor; rewrite ?set_length; [exact E1| |].
           ++ intros i Hi Hl N1 N2. rewrite !get_set by exact Hh.
              destruct (Nat.eqb_spec h i) as [<-|N].
              ** destruct (Nat.eqb_spec h (parent h)) as [F|_]; [pose proof (parent_lt h Hi); lia|]. apply X; auto. lia.
              ** destruct (Nat.eqb_spec h (parent i)) as [F|N3]; [exfalso; apply N1, only; auto|apply A; auto].
           ++ intros c Hc Hl Pc _. exfalso. apply parent_child in Pc; [|exact Hc]. unfold m in *. lia.
        -- intros c Hc Hl Pc. rewrite set_length in Hl. apply parent_child in Pc; [|exact Hc]. unfold m in *. lia.
        -- intros v. apply move_perm; unfold m in *; lia.
      * apply Nat.ltb_ge in E1. split; [exact G|]. split; [reflexivity|]. split; [|reflexivity].
        intros c Hc Hl Pc. apply parent_child in Pc; [|exact Hc]. lia.
Qed.

Lemma get_app1 l l' i : i < length l -> get (l ++ l') i = get l i.
Proof. intros H. unfold get. now rewrite app_nth1. Qed.
Lemma ordered_app l l' : ordered comp (l ++ l') -> ordered comp l.
Proof.
  intros O i Hi Hl. specialize (O i Hi). rewrite app_length in O. specialize (O ltac:(lia)).
  pose proof (parent_lt i Hi). now rewrite !get_app1 in O by lia.
Qed.
Lemma set_last l x v : set (l ++ [x]) (length l) v = l ++ [v].
Proof. induction l as [|a l IH]; [reflexivity|]. cbn [app length set]. now rewrite IH. Qed.
Lemma push_ok l x : IsHeap comp l ->
  Permutation (push_heap_bin comp (l ++ [x])) (l ++ [x]) /\ IsHeap comp (push_heap_bin comp (l ++ [x])).
Proof.
  intros I. apply ordered_heap in I. unfold push_heap_bin. rewrite last_last, app_length. cbn [length].
  replace (length l + 1 - 1) with (length l) by lia.
  assert (G : gap (l ++ [x]) (length l)).
  { constructor; rewrite ?app_length; cbn [length]; [lia| |].
    - intros i Hi Hl N1 N2. pose proof (parent_lt i Hi). rewrite !get_app1 by lia. apply I; lia.
    - intros c Hc Hl Pc. pose proof (parent_lt c Hc). lia. }
  assert (B : below (l ++ [x]) (length l) x).
  { intros c Hc Hl Pc. rewrite app_length in Hl. cbn [length] in Hl. pose proof (parent_lt c Hc). lia. }
  destruct (sift_up_ok (length l + 1) (l ++ [x]) (length l) x ltac:(lia) G B) as [O P].
  split; [|now apply ordered_heap]. rewrite P, set_last. reflexivity.
Qed.
Lemma adjust_ok l v : l <> [] -> ordered comp l ->
  ordered comp (adjust comp l v) /\ Permutation (adjust comp l v) (set l 0 v).
Proof.
  intros Hne O. unfold adjust.
  assert (Hl : 0 < length l) by (destruct l; [congruence|cbn; lia]).
  assert (G : gap l 0).
  { constructor; [exact Hl| |].
    - intros i Hi Hil _ _. now apply O.
    - intros c _ _ _ F. lia. }
  pose proof (sift_down_ok (length l) l 0 ltac:(lia) G) as D.
  destruct (sift_down comp (length l) l 0) as [l' h]. destruct D as (G' & EL & NC & P).
  assert (B : below l' h v) by (intros c Hc Hcl Pc; exfalso; exact (NC c Hc Hcl Pc)).
  assert (Hf : h <= length l') by (destruct G'; lia).
  destruct (sift_up_ok (length l') l' h v Hf G' B) as [O' P']. split; [exact O'|]. now rewrite P'.
Qed.
Lemma pop_ok t l : IsHeap comp (t :: l) ->
  exists l', pop_heap_bin comp (t :: l) = l' ++ [t] /\ Permutation l' l /\ IsHeap comp l'.
Proof.
  intros I. destruct (exists_last (l := t :: l) ltac:(discriminate)) as (b & z & E).
  destruct l as [|y l].
  - exists []. split; [reflexivity|]. split; [constructor|exact (fun i a c Hi Ha _ => ltac:(destruct (Nat.div2 (i-1)); discriminate))].
  - destruct b as [|t' b]; [discriminate E|]. cbn [app] in E. injection E as <- E.
    assert (EL : t :: y :: l = (t :: b) ++ [z]) by (cbn [app]; now rewrite <- E).
    change (pop_heap_bin comp (t :: y :: l)) with (adjust comp (removelast (t :: y :: l)) (last (t :: y :: l) 0) ++ [t]).
    rewrite EL in *. rewrite removelast_last, last_last.
    apply ordered_heap in I. apply ordered_app in I.
    destruct (adjust_ok (t :: b) z ltac:(discriminate) I) as [O P].
    eexists. split; [reflexivity|]. split; [|now apply ordered_heap]. rewrite P, E. cbn [set]. apply Permutation_cons_append.
Qed.
Lemma root_max l i : ordered comp l -> i < length l -> comp (get l 0) (get l i) = false.
Proof.
  intros O. induction i as [i IH] using lt_wf_ind. intros Hl. destruct (Nat.eq_dec i 0) as [->|N]; [apply (sw_irrefl comp SW)|].
  pose proof (parent_lt i ltac:(lia)) as Hp. eapply (sw_negtrans comp SW); [apply (IH (parent i)); lia|]. apply O; lia.
Qed.
Lemma sorted_app_last (l : list nat) t :
  StronglySorted (fun a b => comp b a = false) l -> (forall a, In a l -> comp t a = false) ->
  StronglySorted (fun a b => comp b a = false) (l ++ [t]).
Proof.
  induction 1 as [|a l H IH F]; intros HT; cbn [app]; [repeat constructor|].
  constructor; [apply IH; intros; apply HT; now right|]. apply Forall_app. split; [exact F|].
  constructor; [apply HT; now left|constructor].
Qed.
Lemma sort_ok fuel : forall l, length l <= fuel -> IsHeap comp l ->
  Permutation (sort_heap_fuel comp fuel l) l /\ StronglySorted (fun a b => comp b a = false) (sort_heap_fuel comp fuel l).
Proof.
  induction fuel as [|fuel IH]; intros l Hf I.
  - destruct l; [|cbn in Hf; lia]. split; [reflexivity|constructor].
  - destruct l as [|t [|y l]]; [split; [reflexivity|constructor]|split; [reflexivity|repeat constructor]|].
    destruct (pop_ok t (y :: l) I) as (l' & E & P & I').
    assert (ES : sort_heap_fuel comp (S fuel) (t :: y :: l) = sort_heap_fuel comp fuel l' ++ [t]).
    { cbn [sort_heap_fuel]. rewrite E, removelast_last, last_last. reflexivity. }
    rewrite ES. destruct (IH l') as [P1 S1]; [rewrite (Permutation_length P); cbn in *; lia|exact I'|].
    split; [rewrite P1, P; symmetry; apply Permutation_cons_append|].
    apply sorted_app_last; [exact S1|]. intros a Ha.
    assert (Ha' : In a (y :: l)) by (eapply Permutation_in; [exact P|eapply Permutation_in; [exact P1|exact Ha]]).
    apply (In_nth _ _ 0) in Ha'. destruct Ha' as (i & Hi & <-).
    apply ordered_heap in I. exact (root_max (t :: y :: l) (S i) I ltac:(cbn in *; lia)).
Qed.
End Order.

Lemma binary_heap_ok : HeapContract binary_heap.
Proof.
  constructor; intros comp SW; cbn [push_heap pop_heap sort_heap binary_heap].
  - intros l x. now apply push_ok.
  - intros t l. now apply pop_ok.
  - intros l. unfold sort_heap_bin. apply sort_ok; auto.
Qed.

(** In place, whatever the comparison does. *)
Lemma sift_up_length comp fuel : forall l h v, length (sift_up comp fuel l h v) = length l.
Proof.
  induction fuel as [|fuel IH]; intros l h v; cbn [sift_up]; [apply set_length|].
  destruct (_ && _); [now rewrite IH, set_length|apply set_length].
Qed.
Lemma sift_down_length comp fuel : forall l h, length (fst (sift_down comp fuel l h)) = length l.
Proof.
  induction fuel as [|fuel IH]; intros l h; cbn [sift_down]; [reflexivity|].
  destruct (_ <? _); [now rewrite IH, set_length|]. destruct (_ <? _); [apply set_length|reflexivity].
Qed.
Lemma pop_length comp l : length (pop_heap_bin comp l) = length l.
Proof.
  destruct l as [|t [|y l]]; [reflexivity|reflexivity|].
  change (pop_heap_bin comp (t :: y :: l)) with (adjust comp (removelast (t :: y :: l)) (last (t :: y :: l) 0) ++ [t]).
  destruct (exists_last (l := t :: y :: l) ltac:(discriminate)) as (b & z & ->). rewrite removelast_last, last_last, !app_length. cbn [length].
  f_equal. unfold adjust. pose proof (sift_down_length comp (length b) b 0) as D. destruct (sift_down comp (length b) b 0) as [l' h].
  cbn [fst] in D. now rewrite sift_up_length.
Qed.
Lemma sort_length comp fuel : forall l, length (sort_heap_fuel comp fuel l) = length l.
Proof.
  induction fuel as [|fuel IH]; intros l; [reflexivity|].
  destruct l as [|t [|y l]]; [reflexivity|reflexivity|]. cbn [sort_heap_fuel]. rewrite app_length, IH.
  pose proof (pop_length comp (t :: y :: l)) as P.
  destruct (exists_last (l := pop_heap_bin comp (t :: y :: l))) as (b & z & E); [intros F; rewrite F in P; discriminate|].
  rewrite E in *. rewrite removelast_last. rewrite app_length in P. cbn [length] in *. lia.
Qed.
Lemma binary_heap_in_place : InPlace binary_heap.
Proof.
  split; [|split]; intros comp l; cbn [push_heap pop_heap sort_heap binary_heap].
  - unfold push_heap_bin. apply sift_up_length.
  - apply pop_length.
  - unfold sort_heap_bin. apply sort_length.
Qed.
