(** The histogram of samples whose arithmetic obeys no laws: what is counted where. *)
From Coq Require Import List Arith Bool Lia.
From Verif Require Import Num ModelMinMax ModelRolling ModelDensity SpecStats SpecDensity SpecDoubleDensity ProofRolling ProofRollingBuf ProofDensity.
Import ListNotations.

Section Lawless.
Variable K : Num.
Local Notation T := (car K).
Variable E : Type.
Variables val amt : E -> T.
Variable den : nat -> T -> T.
Variables lo hi : T.
Variables c b : nat.
Hypothesis Hc : 1 <= c.
Variable P : T -> Prop.
Let L : Limits := dens_limits K lo hi.
Definition lmin (es : list E) : T := min_run L (map val es).
Definition lmax (es : list E) : T := max_run L (map val es).
(** Samples satisfying [P] always have a bin. *)
Hypothesis HP : forall es x, es <> [] -> Forall P (map val es) -> P x ->
  exists i, bin_index K b (bin_positions K b (lmin es) (lmax es)) x = Ok i /\ i <= b + 1.

Definition bin_of (pos : list T) (e : E) : nat := match bin_index K b pos (val e) with Ok i => i | _ => 0 end.
Definition run_amt (es : list E) : T := fold_left (fun a e => add K a (amt e)) es (zero K).
Definition mass (pos : list T) (es : list E) (i : nat) : T := run_amt (filter (fun e => Nat.eqb (bin_of pos e) i) es).

Lemma run_amt_snoc es e : run_amt (es ++ [e]) = add K (run_amt es) (amt e).
Proof. unfold run_amt. rewrite fold_left_app. reflexivity. Qed.
Lemma mass_snoc pos es e i : mass pos (es ++ [e]) i = if Nat.eqb (bin_of pos e) i then add K (mass pos es i) (amt e) else mass pos es i.
Proof.
  unfold mass. rewrite filter_app. cbn [filter]. destruct (Nat.eqb (bin_of pos e) i); [apply run_amt_snoc|rewrite app_nil_r; reflexivity].
Qed.
Lemma mass_nil pos : map (mass pos []) (seq 0 (b + 2)) = repeat (zero K) (b + 2).
Proof.
  assert (G : forall n a, map (mass pos []) (seq a n) = repeat (zero K) n) by (induction n as [|n IH]; intros a; cbn; [reflexivity|rewrite IH; reflexivity]). apply G.
Qed.
Lemma lawless_add pos es e : (exists i, bin_index K b pos (val e) = Ok i /\ i <= b + 1) ->
  bin_add K E val amt b pos (map (mass pos es) (seq 0 (b + 2))) e = Ok (map (mass pos (es ++ [e])) (seq 0 (b + 2))).
Proof.
  intros (i & Ei & Hi). unfold bin_add. rewrite Ei. rewrite nth_error_map_seq by lia. rewrite set_nth_map_seq by lia. f_equal. apply map_ext_in.
  intros j _. rewrite mass_snoc. unfold bin_of. rewrite Ei. destruct (Nat.eqb_spec i j) as [->|]; reflexivity.
Qed.
Lemma lawless_add_all pos es : Forall (fun e => exists i, bin_index K b pos (val e) = Ok i /\ i <= b + 1) es ->
  bin_add_all K E val amt b pos (repeat (zero K) (b + 2)) es = Ok (map (mass pos es) (seq 0 (b + 2))).
Proof.
  unfold bin_add_all. induction es as [|e es IH] using rev_ind; intros F; [cbn [fold_left]; rewrite mass_nil; reflexivity|].
  apply Forall_app in F as [F1 F2]. rewrite fold_left_app, (IH F1). cbn [fold_left]. apply lawless_add. inversion F2; assumption.
Qed.

Record lawless_inv (es : list E) (s : dens K E) : Prop := {
  li_count : de_count K E s = length es;
  li_wsum : de_wsum K E s = run_amt es;
  li_min : de_min K E s = lmin es;
  li_max : de_max K E s = lmax es;
  li_cache_len : length (de_cache K E s) = c;
  li_cache : length es <= c -> firstn (length es) (de_cache K E s) = es;
  li_before : length es < c -> de_bins K E s = repeat (zero K) (b + 2) /\ de_pos K E s = repeat (zero K) (b + 2);
  li_after : c <= length es -> let pos := bin_positions K b (lmin (firstn c es)) (lmax (firstn c es)) in
    de_pos K E s = pos /\ de_bins K E s = map (mass pos es) (seq 0 (b + 2));
  li_clean : de_dirty K E s = false ->
    de_hist K E s = map (fun pc => (fst pc, div K (snd pc) (den (length es) (run_amt es)))) (combine (de_pos K E s) (de_bins K E s))
}.
Lemma lawless_init s0 e0 : lawless_inv [] (dens_init K E lo hi c b s0 e0).
Proof. constructor; cbn; try reflexivity; intros; try lia; try discriminate; auto; apply repeat_length. Qed.
Lemma lawless_push es s e : Forall P (map val (es ++ [e])) -> lawless_inv es s ->
  exists s', dens_push K E val amt lo hi c b s e = Ok s' /\ lawless_inv (es ++ [e]) s'.
Proof.
  intros HF I. destruct I as [I1 I2 I3 I4 I5 I6 I7 I8 I9].
  assert (Hlen : length (es ++ [e]) = S (length es)) by (rewrite app_length; cbn; lia).
  assert (Hmin : min_assign (dens_limits K lo hi) (lmin es) (val e) = lmin (es ++ [e])).
  { unfold lmin, min_run. rewrite map_app, fold_left_app. reflexivity. }
  assert (Hmax : max_assign (dens_limits K lo hi) (lmax es) (val e) = lmax (es ++ [e])).
  { unfold lmax, max_run. rewrite map_app, fold_left_app. reflexivity. }
  unfold dens_push, dens_operate. rewrite I1, I2, I3, I4, Hmin, Hmax.
  assert (Hsub : S (length es) - 1 = length es) by lia. rewrite Hsub.
  destruct (lt_eq_lt_dec (S (length es)) c) as [[Hlt|Heq]|Hgt].
  - rewrite (proj2 (Nat.leb_le _ _)) by lia. rewrite (proj2 (Nat.eqb_neq _ _)) by lia. rewrite (proj2 (Nat.ltb_ge _ _)) by lia.
    eexists; split; [reflexivity|]. destruct (I7 ltac:(lia)) as [J1 J2].
    constructor; cbn; rewrite ?Hlen; auto; try lia; try discriminate.
    + rewrite run_amt_snoc. reflexivity.
    + rewrite set_nth_length. exact I5.
    + intros _. rewrite <- Hlen. apply (cache_step E c 1 Hc (le_n 1) (de_cache K E s)); auto; [lia|apply I6; lia].
  - rewrite (proj2 (Nat.leb_le _ _)) by lia. rewrite (proj2 (Nat.eqb_eq _ _)) by lia.
    destruct (I7 ltac:(lia)) as [J1 J2].
    assert (HC : set_nth (length es) e (de_cache K E s) = es ++ [e]).
    { assert (G := cache_step E c 1 Hc (le_n 1) (de_cache K E s) es e I5 ltac:(lia) (I6 ltac:(lia))).
      rewrite firstn_all2 in G by (rewrite set_nth_length, I5, Hlen; lia). exact G. }
    rewrite HC, J1.
    assert (Hne : es ++ [e] <> []) by (destruct es; discriminate).
    rewrite lawless_add_all.
    2:{ apply Forall_forall. intros x Hx. apply HP; [exact Hne|exact HF|]. rewrite Forall_forall in HF. apply HF, in_map, Hx. }
    eexists; split; [reflexivity|].
    assert (HFi : firstn c (es ++ [e]) = es ++ [e]) by (apply firstn_all2; lia).
    constructor; cbn; rewrite ?Hlen, ?HFi; auto; try lia; try discriminate.
    + rewrite run_amt_snoc. reflexivity.
    + intros _. rewrite <- Hlen. apply firstn_all.
  - rewrite (proj2 (Nat.leb_gt _ _)) by lia. rewrite (proj2 (Nat.eqb_neq _ _)) by lia. rewrite (proj2 (Nat.ltb_lt _ _)) by lia.
    destruct (I8 ltac:(lia)) as [J1 J2]. rewrite J1, J2.
    rewrite map_app in HF. apply Forall_app in HF as [HF1 HF2].
    rewrite lawless_add.
    2:{ apply HP; [|rewrite <- firstn_map|inversion HF2; assumption].
        - intros C. assert (length (firstn c es) = 0) by (rewrite C; reflexivity). rewrite firstn_length in H. lia.
        - apply Forall_forall. intros x Hx. rewrite Forall_forall in HF1. apply HF1. rewrite <- (firstn_skipn c (map val es)). apply in_or_app; left; exact Hx. }
    eexists; split; [reflexivity|].
    assert (HFi : firstn c (es ++ [e]) = firstn c es).
    { rewrite firstn_app. replace (c - length es) with 0 by lia. cbn [firstn]. apply app_nil_r. }
    constructor; cbn; rewrite ?Hlen, ?HFi; auto; try lia; try discriminate.
    rewrite run_amt_snoc. reflexivity.
Qed.
Lemma lawless_extract es s : lawless_inv es s -> lawless_inv es (dens_extract K E den s).
Proof.
  intros [I1 I2 I3 I4 I5 I6 I7 I8 I9]. unfold dens_extract. destruct (de_dirty K E s) eqn:Ed; constructor; auto.
  cbn. intros _. rewrite I1, I2. reflexivity.
Qed.
Lemma lawless_run s0 e0 ops : Forall P (map val (dens_pushes ops)) ->
  exists s, dens_run K E val amt den lo hi c b (dens_init K E lo hi c b s0 e0) ops = Ok s /\ lawless_inv (dens_pushes ops) s.
Proof.
  unfold dens_run. induction ops as [|o ops IH] using rev_ind; intros HF; [eexists; split; [reflexivity|apply lawless_init]|].
  unfold dens_pushes in *. rewrite flat_map_app in *. fold (dens_pushes ops) in *.
  assert (HF1 : Forall P (map val (dens_pushes ops))) by (rewrite map_app in HF; apply Forall_app in HF as [HF1 _]; exact HF1).
  destruct (IH HF1) as (s & E1 & I). rewrite fold_left_app, E1. cbn [fold_left dens_step].
  destruct o as [e|]; cbn [flat_map] in *; rewrite ?app_nil_r in *.
  - destruct (lawless_push _ _ e HF I) as (s' & E2 & I'). exists s'. auto.
  - eexists; split; [reflexivity|]. apply lawless_extract; assumption.
Qed.
Lemma lawless_main s0 e0 ops : let es := dens_pushes ops in Forall P (map val es) -> c <= length es ->
  let m := lmin (firstn c es) in let M := lmax (firstn c es) in
  exists s, dens_run K E val amt den lo hi c b (dens_init K E lo hi c b s0 e0) ops = Ok s /\
    dens_result K E den s = map (fun i => (BinPosition K m M b i, div K (mass (bin_positions K b m M) es i) (den (length es) (run_amt es)))) (seq 0 (b + 2)).
Proof.
  intros es HF Hn m M. destruct (lawless_run s0 e0 ops HF) as (s & E1 & I). fold es in I. exists s. split; [exact E1|].
  assert (I' := lawless_extract _ _ I). destruct I' as [J1 J2 _ _ _ _ _ J8 J9]. unfold dens_result.
  rewrite J9. 2:{ unfold dens_extract. destruct (de_dirty K E s) eqn:Ed; [reflexivity|exact Ed]. }
  destruct (J8 Hn) as [-> ->]. fold m M. unfold bin_positions at 1. rewrite combine_map2, map_map. reflexivity.
Qed.

(** Where a sample goes, for positions in ascending order. *)
Lemma index_falls (pos : nat -> T) x : 1 <= b -> (ltb K x (pos 0) = true -> ltb K x (pos 1) = true) ->
  exists i, bin_index K b (map pos (seq 0 (b + 2))) x = Ok i /\ i <= b + 1 /\ FallsIn K b pos i x = true.
Proof.
  intros Hb H0. unfold bin_index. rewrite !nth_error_map_seq by lia.
  destruct (ltb K x (pos 1)) eqn:E1.
  { exists 0. split; [reflexivity|]. split; [lia|]. unfold FallsIn. cbn. rewrite E1. apply orb_true_r. }
  destruct (leb K (pos (b + 1)) x) eqn:E2.
  { exists (b + 1). split; [reflexivity|]. split; [lia|]. unfold FallsIn. rewrite Nat.eqb_refl. unfold leb in E2. rewrite E2. cbn. rewrite orb_true_r. reflexivity. }
  assert (U : forall n a, exists k, upper_bound K (map pos (seq a n)) x = k /\ k <= n /\ (forall i, i < k -> ltb K x (pos (a + i)) = false) /\ (k < n -> ltb K x (pos (a + k)) = true)).
  { induction n as [|n IH]; intros a; cbn [seq map upper_bound]; [exists 0; repeat split; lia|].
    destruct (ltb K x (pos a)) eqn:Ea; [exists 0; repeat split; try lia; intros _; rewrite Nat.add_0_r; exact Ea|].
    destruct (IH (S a)) as (k & -> & Hk & H1 & H2). exists (S k). repeat split; try lia.
    - intros [|i] Hi; [rewrite Nat.add_0_r; exact Ea|]. rewrite <- plus_n_Sm. apply (H1 i). lia.
    - intros Hk'. rewrite <- plus_n_Sm. apply H2. lia. }
  destruct (U (b + 2) 0) as (k & -> & Hk & H1 & H2). cbn [Nat.add] in H1, H2.
  unfold leb in E2. apply negb_false_iff in E2.
  assert (Hkb : k < b + 2).
  { destruct (Nat.lt_ge_cases k (b + 2)) as [C|C]; [exact C|]. specialize (H1 (b + 1) ltac:(lia)). congruence. }
  destruct k as [|k]; [specialize (H0 (H2 ltac:(lia))); congruence|].
  exists k. split; [reflexivity|]. split; [lia|]. unfold FallsIn. rewrite (H1 k) by lia. cbn [negb]. rewrite !orb_true_r. cbn.
  replace (k + 1) with (S k) by lia. rewrite H2 by lia. apply orb_true_r.
Qed.
End Lawless.
