(** Proofs about the physical circular buffer behind rolling windows and its serialization. *)
From Coq Require Import List Arith Bool Lia.
From Verif Require Import Num ModelRolling SpecRolling ProofRolling.
Import ListNotations.

Lemma set_nth_length {B} n (v : B) l : length (set_nth n v l) = length l.
Proof. revert n; induction l as [|h t IH]; intros [|n]; cbn; auto. Qed.
Lemma nth_set_nth {B} n (v : B) l j d : n < length l ->
  nth j (set_nth n v l) d = if Nat.eqb n j then v else nth j l d.
Proof.
  revert n j; induction l as [|h t IH]; intros n j Hn; [cbn in Hn; lia|].
  destruct n as [|n], j as [|j]; cbn; auto. cbn in Hn. apply IH. lia.
Qed.

(** The buffer [b] holds exactly the elements [l]. *)
Record holds {A} (b : cbuf A) (l : list A) : Prop := {
  h_len : length (cb_cells b) = cb_cap b;
  h_first : cb_first b = 0 \/ cb_first b < cb_cap b;
  h_size : cb_size b = length l;
  h_cap : length l <= cb_cap b;
  h_cells : forall i, i < length l ->
              nth ((cb_first b + i) mod cb_cap b) (cb_cells b) None = nth i (map Some l) None
}.

Lemma holds_contents {A} (b : cbuf A) l : holds b l -> cbuf_contents b = map Some l.
Proof.
  intros [Hl Hf Hs Hc Hn]. unfold cbuf_contents. apply nth_ext with (d := None) (d' := None).
  - rewrite !map_length, seq_length. exact Hs.
  - intros i Hi. rewrite map_length, seq_length in Hi.
    set (f := fun i => nth ((cb_first b + i) mod cb_cap b) (cb_cells b) None).
    rewrite (nth_indep (map f (seq 0 (cb_size b))) None (f 0)) by (rewrite map_length, seq_length; exact Hi).
    rewrite map_nth, seq_nth by exact Hi. cbn [Nat.add]. apply Hn. lia.
Qed.

Lemma mod_lt a c : 0 < c -> a mod c < c.
Proof. intros. apply Nat.mod_upper_bound. lia. Qed.
Lemma mod_wrap f i c : 0 < c -> f < c -> i < c ->
  (f + i) mod c = if Nat.ltb (f + i) c then f + i else f + i - c.
Proof.
  intros Hc Hf Hi. destruct (Nat.ltb_spec (f + i) c).
  - apply Nat.mod_small. assumption.
  - replace (f + i) with ((f + i - c) + 1 * c) at 1 by lia.
    rewrite Nat.mod_add by lia. apply Nat.mod_small. lia.
Qed.

Lemma holds_new {A} cap : holds (@cbuf_new A cap) [].
Proof.
  constructor; cbn; try lia.
  - apply repeat_length.
Qed.

Lemma holds_push {A} (b : cbuf A) l x : holds b l -> holds (cbuf_push b x) (cb_push (cb_cap b) l x).
Proof.
  intros [Hl Hf Hs Hc Hn]. unfold cbuf_push, cb_push. rewrite Hs.
  destruct (Nat.eqb_spec (length l) (cb_cap b)) as [E|E].
  - destruct l as [|y t].
    + cbn in E. rewrite <- E. cbn. constructor; auto.
    + assert (0 < cb_cap b) by (cbn in E; lia).
      destruct (Nat.eqb_spec (cb_cap b) 0) as [C|C]; [lia|].
      assert (Hf' : cb_first b < cb_cap b) by lia.
      constructor; cbn [cb_cap cb_cells cb_first cb_size].
      * rewrite set_nth_length. exact Hl.
      * right. apply mod_lt. lia.
      * rewrite app_length. cbn. lia.
      * rewrite app_length. cbn in *. lia.
      * intros i Hi. rewrite app_length in Hi. cbn in Hi, E.
        rewrite Nat.add_mod_idemp_l by lia.
        rewrite nth_set_nth by lia.
        destruct (Nat.eq_dec i (length t)) as [Ei|Ei].
        -- subst i. replace ((cb_first b + 1 + length t)) with (cb_first b + 1 * cb_cap b) by lia.
           rewrite Nat.mod_add by lia. rewrite Nat.mod_small by exact Hf'. rewrite Nat.eqb_refl.
           rewrite map_app, app_nth2; rewrite map_length; [|lia]. rewrite Nat.sub_diag. reflexivity.
        -- specialize (Hn (S i) ltac:(cbn; lia)).
           replace (cb_first b + 1 + i) with (cb_first b + S i) by lia.
           destruct (Nat.eqb_spec (cb_first b) ((cb_first b + S i) mod cb_cap b)) as [Q|Q].
           ++ exfalso. rewrite mod_wrap in Q by lia.
              destruct (Nat.ltb_spec (cb_first b + S i) (cb_cap b)); lia.
           ++ rewrite Hn. cbn [map nth]. rewrite map_app, app_nth1; [reflexivity|].
              rewrite map_length. lia.
  - assert (Hc' : 0 < cb_cap b) by lia.
    assert (Hf' : cb_first b < cb_cap b) by lia.
    constructor; cbn [cb_cap cb_cells cb_first cb_size].
    + rewrite set_nth_length. exact Hl.
    + lia.
    + rewrite app_length. cbn. lia.
    + rewrite app_length. cbn. lia.
    + intros i Hi. rewrite app_length in Hi. cbn in Hi.
      rewrite nth_set_nth by (rewrite Hl; apply mod_lt; lia).
      destruct (Nat.eq_dec i (length l)) as [Ei|Ei].
      * subst i. rewrite Nat.eqb_refl. rewrite map_app, app_nth2; rewrite map_length; [|lia].
        rewrite Nat.sub_diag. reflexivity.
      * destruct (Nat.eqb_spec ((cb_first b + length l) mod cb_cap b) ((cb_first b + i) mod cb_cap b)) as [Q|Q].
        -- exfalso. rewrite !mod_wrap in Q by lia.
           destruct (Nat.ltb_spec (cb_first b + length l) (cb_cap b)), (Nat.ltb_spec (cb_first b + i) (cb_cap b)); lia.
        -- rewrite Hn by lia. rewrite map_app, app_nth1; [reflexivity|]. rewrite map_length. lia.
Qed.

Lemma cbuf_push_cap {A} (b : cbuf A) x : cb_cap (cbuf_push b x) = cb_cap b.
Proof. unfold cbuf_push. destruct (Nat.eqb _ _); [destruct (Nat.eqb _ 0)|]; reflexivity. Qed.
Lemma cbuf_pushes_cap {A} (xs : list A) b : cb_cap (fold_left cbuf_push xs b) = cb_cap b.
Proof. revert b; induction xs as [|x xs IH]; intros b; cbn; [reflexivity|]. rewrite IH. apply cbuf_push_cap. Qed.
Lemma holds_pushes {A} (xs : list A) b l : holds b l ->
  holds (fold_left cbuf_push xs b) (fold_left (cb_push (cb_cap b)) xs l).
Proof.
  revert b l; induction xs as [|x xs IH]; intros b l H; cbn; [exact H|].
  rewrite <- (cbuf_push_cap b x). apply IH. rewrite cbuf_push_cap. apply holds_push. exact H.
Qed.
Lemma cb_pushes {A} N (xs : list A) : fold_left (cb_push (N + 1)) xs [] = LastN (N + 1) xs.
Proof.
  induction xs as [|x xs IH] using rev_ind; [reflexivity|].
  rewrite fold_left_app. cbn. rewrite IH. apply buf_push.
Qed.
Lemma cb_pushes_short {A} cap (xs l : list A) : length l + length xs <= cap ->
  fold_left (cb_push cap) xs l = l ++ xs.
Proof.
  revert l; induction xs as [|x xs IH]; intros l H; cbn; [symmetry; apply app_nil_r|].
  cbn in H. unfold cb_push at 2. destruct (Nat.eqb_spec (length l) cap) as [E|E]; [lia|].
  rewrite IH by (rewrite app_length; cbn; lia). rewrite <- app_assoc. reflexivity.
Qed.

Lemma pieces_contents {A} (b : cbuf A) l : holds b l -> array_one b ++ array_two b = map Some l.
Proof.
  intros H. destruct H as [Hl Hf Hs Hc Hn]. unfold array_one, array_two. rewrite Hs.
  destruct (Nat.eq_dec (cb_cap b) 0) as [Z|Z].
  - destruct l; [|cbn in Hc; lia]. cbn. destruct (cb_cells b); reflexivity.
  - assert (Hf' : cb_first b < cb_cap b) by lia.
    set (k := cb_cap b - cb_first b) in *.
    assert (L1 : length (firstn (Nat.min (length l) k) (skipn (cb_first b) (cb_cells b))) = Nat.min (length l) k)
      by (rewrite firstn_length, skipn_length; lia).
    assert (L2 : length (firstn (length l - k) (cb_cells b)) = length l - k)
      by (rewrite firstn_length; lia).
    apply nth_ext with (d := None) (d' := None).
    + rewrite app_length, L1, L2, map_length. lia.
    + intros i Hi. rewrite app_length, L1, L2 in Hi. rewrite <- Hn by lia.
      rewrite mod_wrap by lia.
      assert (FN : forall (l : list (option A)) n i, i < n -> nth i (firstn n l) None = nth i l None).
      { clear. intros l; induction l as [|a l IH]; intros n i Hi; [destruct n; reflexivity|].
        destruct n; [lia|]. destruct i; [reflexivity|]. cbn. apply IH. lia. }
      assert (SN : forall (l : list (option A)) n i, nth i (skipn n l) None = nth (n + i) l None).
      { clear. intros l; induction l as [|a l IH]; intros n i; [destruct n, i; reflexivity|].
        destruct n; [reflexivity|]. cbn. apply IH. }
      destruct (Nat.ltb_spec (cb_first b + i) (cb_cap b)) as [Q|Q].
      * rewrite app_nth1 by lia. rewrite FN by lia. apply SN.
      * rewrite app_nth2 by lia. rewrite L1. rewrite FN by lia. f_equal. lia.
Qed.

Lemma all_some_map {A} (l : list A) : all_some (map Some l) = Some l.
Proof. induction l as [|a l IH]; cbn; [reflexivity|]. rewrite IH. reflexivity. Qed.

Lemma save_load_holds {A} (b : cbuf A) l : holds b l ->
  exists b', cbuf_load (cbuf_save b) = Some b' /\ cb_cap b' = cb_cap b /\ holds b' l.
Proof.
  intros H. unfold cbuf_save, cbuf_load. rewrite (pieces_contents b l H).
  rewrite (h_size _ _ H), map_length, Nat.ltb_irrefl.
  rewrite <- (map_length Some l), firstn_all, all_some_map.
  eexists; split; [reflexivity|]. split; [rewrite cbuf_pushes_cap; reflexivity|].
  assert (HH := holds_pushes l (@cbuf_new A (cb_cap b)) [] (holds_new _)). cbn [cb_cap cbuf_new] in HH.
  rewrite cb_pushes_short in HH by (cbn; apply (h_cap _ _ H)). exact HH.
Qed.

(** Whole story: reachable buffers survive a save/load and then evolve like the original. *)
Lemma save_load_spec {A} N (xs : list A) :
  exists b', cbuf_load (cbuf_save (fold_left cbuf_push xs (cbuf_new (N + 1)))) = Some b' /\
    forall ys, let c := fold_left cbuf_push ys (fold_left cbuf_push xs (cbuf_new (N + 1))) in
               let c' := fold_left cbuf_push ys b' in
      cbuf_contents c' = map Some (LastN (N + 1) (xs ++ ys)) /\
      cbuf_contents c = map Some (LastN (N + 1) (xs ++ ys)) /\
      cb_size c' = cb_size c /\ cb_cap c' = cb_cap c /\
      cbuf_save c' = cbuf_save c.
Proof.
  set (b := fold_left cbuf_push xs (cbuf_new (N + 1))).
  assert (Hb : holds b (LastN (N + 1) xs)).
  { rewrite <- cb_pushes. apply (holds_pushes xs (cbuf_new (N + 1)) [] (holds_new _)). }
  assert (Hcap : cb_cap b = N + 1) by (unfold b; rewrite cbuf_pushes_cap; reflexivity).
  destruct (save_load_holds b _ Hb) as (b' & E & Hc & Hb'). exists b'; split; [exact E|].
  intros ys c c'.
  assert (HL : fold_left (cb_push (N + 1)) ys (LastN (N + 1) xs) = LastN (N + 1) (xs ++ ys)).
  { rewrite <- cb_pushes, <- fold_left_app. apply cb_pushes. }
  assert (H1 : holds c (LastN (N + 1) (xs ++ ys))).
  { unfold c. rewrite <- HL, <- Hcap at 1. apply holds_pushes. exact Hb. }
  assert (H2 : holds c' (LastN (N + 1) (xs ++ ys))).
  { unfold c'. rewrite <- HL, <- Hcap at 1. rewrite <- Hc. apply holds_pushes. exact Hb'. }
  assert (K1 : cb_cap c = N + 1) by (unfold c; rewrite cbuf_pushes_cap; exact Hcap).
  assert (K2 : cb_cap c' = N + 1) by (unfold c'; rewrite cbuf_pushes_cap, Hc; exact Hcap).
  split; [apply holds_contents; exact H2|]. split; [apply holds_contents; exact H1|].
  split; [rewrite (h_size _ _ H1), (h_size _ _ H2); reflexivity|]. split; [congruence|].
  unfold cbuf_save. rewrite (pieces_contents _ _ H1), (pieces_contents _ _ H2), K1, K2,
    (h_size _ _ H1), (h_size _ _ H2). reflexivity.
Qed.
