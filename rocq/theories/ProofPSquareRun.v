(** Runs of the P-square accumulators. *)
From Coq Require Import List Arith Bool Lia Field Permutation Sorted.
From Verif Require Import Num NumFacts ModelRolling ModelDensity ModelPSquare SpecStats SpecDensity SpecTail SpecPSquare
  ProofBasic ProofOrder ProofRollingBuf ProofTail ProofPSquare.
Import ListNotations.

Lemma set_nth_skipn {A} (l r : list A) v : (length l < length r)%nat ->
  set_nth (length l) v (l ++ skipn (length l) r) = (l ++ [v]) ++ skipn (S (length l)) r.
Proof.
  intros H. rewrite <- app_assoc. cbn [app].
  assert (E : skipn (length l) r = nth (length l) r v :: skipn (S (length l)) r).
  { clear -H. generalize (length l) H. clear. intros n. revert n. induction r as [|a r IH]; intros [|n] H; cbn in *; try lia; auto.
    apply IH. lia. }
  rewrite E. generalize (nth (length l) r v) (skipn (S (length l)) r). clear. intros y r.
  induction l as [|a l IH]; [reflexivity|]. cbn. f_equal. exact IH.
Qed.
Lemma skipn_full {A} (l : list A) n : (length l <= n)%nat -> skipn n l = [].
Proof. apply skipn_all2. Qed.
Lemma combine_fst_snd {A B} (l : list (A * B)) : combine (map fst l) (map snd l) = l.
Proof. induction l as [|[a b] l IH]; [reflexivity|]. cbn. f_equal. exact IH. Qed.

Section Run.
Variable K : Num.
Hypothesis HO : OrderedLaws K.
Let HK : FieldLaws K := ord_field K HO.
Local Notation T := (car K).
Local Notation "0" := (zero K) : num_scope.
Local Notation "x + y" := (add K x y) : num_scope.
Local Notation "x <= y" := (kle K x y) : num_scope.
Local Open Scope num_scope.
Add Field KfieldPSR : (fl_field K HK).
Local Notation at_ l i := (nth i l 0).

Variable M : nat.
Variable weighted : bool.
Variable cum : nat.
Variable des : T -> list T -> list T -> outcome (list T).
Variable m0 : marks K.
Hypothesis HM : (2 <= M)%nat.
Hypothesis Lh0 : length (mh K m0) = M.
Hypothesis Lp0 : length (mp K m0) = M.
Hypothesis Ld0 : length (md K m0) = M.

Definition run := psq_run K M weighted cum des m0.
Definition hinit (es : list (T * T)) : list T :=
  if weighted then map fst (sel_sort K M es) else std_sort K (map fst es).
Definition pinit (es : list (T * T)) : list T :=
  if weighted then cumulate K cum (map snd (sel_sort K M es)) else mp K m0.

Lemma run_snoc es e : run (es ++ [e]) = obnd (run es) (fun s => psq_push K M weighted cum des s (fst e) (snd e)).
Proof. unfold run, psq_run. rewrite fold_left_app. reflexivity. Qed.

Lemma run_early es : (length es < M)%nat ->
  run es = Ok {| ps_count := length es; ps_wsum := total K snd es;
    ps_marks := {| mh := map fst es ++ skipn (length es) (mh K m0);
                   mp := if weighted then map snd es ++ skipn (length es) (mp K m0) else mp K m0;
                   md := md K m0 |} |}.
Proof.
  induction es as [|e es IH] using rev_ind; intros HL.
  - unfold run, psq_run. cbn [fold_left length map app skipn]. f_equal. f_equal. destruct m0; cbn. destruct weighted; reflexivity.
  - rewrite app_length in HL. cbn in HL. rewrite run_snoc, IH by lia. cbn [obnd]. unfold psq_push, psq_operate.
    cbn [ps_count ps_wsum ps_marks mh mp md]. rewrite app_length. cbn [length].
    destruct (Nat.leb_spec (S (length es)) M); [|lia]. destruct (Nat.eqb_spec (S (length es)) M); [lia|].
    cbn [obnd]. replace (S (length es) - 1)%nat with (length es) by lia. replace (length es + 1)%nat with (S (length es)) by lia.
    rewrite (total_snoc K HK), !map_app. cbn [map].
    assert (E1 := set_nth_skipn (map fst es) (mh K m0) (fst e)). rewrite map_length in E1. rewrite E1 by lia.
    assert (E2 := set_nth_skipn (map snd es) (mp K m0) (snd e)). rewrite map_length in E2.
    destruct weighted; [rewrite E2 by lia|]; reflexivity.
Qed.

Lemma run_init es : length es = M ->
  run es = Ok {| ps_count := length es; ps_wsum := total K snd es;
    ps_marks := {| mh := hinit es; mp := pinit es; md := md K m0 |} |}.
Proof.
  destruct es as [|e es _] using rev_ind; intros HL; [cbn in HL; lia|].
  rewrite app_length in HL. cbn in HL. rewrite run_snoc, run_early by lia. cbn [obnd]. unfold psq_push, psq_operate.
  cbn [ps_count ps_wsum ps_marks mh mp md]. rewrite app_length. cbn [length].
  destruct (Nat.leb_spec (S (length es)) M); [|lia]. destruct (Nat.eqb_spec (S (length es)) M); [|lia].
  replace (S (length es) - 1)%nat with (length es) by lia. replace (length es + 1)%nat with (S (length es)) by lia.
  rewrite (total_snoc K HK).
  assert (E1 := set_nth_skipn (map fst es) (mh K m0) (fst e)). rewrite map_length in E1. rewrite E1 by lia.
  assert (E2 := set_nth_skipn (map snd es) (mp K m0) (snd e)). rewrite map_length in E2.
  rewrite (skipn_full (mh K m0)) by lia. rewrite app_nil_r. unfold hinit, pinit. destruct weighted.
  - rewrite E2 by lia. rewrite (skipn_full (mp K m0)) by lia. rewrite app_nil_r. cbn [obnd].
    replace (map fst es ++ [fst e]) with (map fst (es ++ [e])) by (rewrite map_app; reflexivity).
    replace (map snd es ++ [snd e]) with (map snd (es ++ [e])) by (rewrite map_app; reflexivity).
    rewrite combine_fst_snd. reflexivity.
  - cbn [obnd]. rewrite map_app. reflexivity.
Qed.

Lemma hinit_spec es : length es = M ->
  length (hinit es) = M /\ Asc K M (hinit es) /\ IsMin K (map fst es) (at_ (hinit es) 0) /\ IsMax K (map fst es) (at_ (hinit es) (M - 1)).
Proof.
  intros HL. assert (P : Permutation (map fst es) (hinit es) /\ NonDecreasing K (hinit es)).
  { unfold hinit. destruct weighted.
    - apply (sel_sort_heights K HO). exact HL.
    - split; [apply std_sort_perm|apply (std_sort_sorted K HO)]. }
  destruct P as [P S]. assert (L : length (hinit es) = M) by (rewrite <- (Permutation_length P), map_length; exact HL).
  split; [exact L|]. split; [rewrite <- L; apply nondec_Asc; exact S|].
  destruct (sorted_min K HO (hinit es)) as [A B]; [intros C; rewrite C in L; cbn in L; lia|exact S|].
  split; [apply (IsMin_perm K (hinit es)); [symmetry; exact P|exact A]|].
  rewrite L in B. apply (IsMax_perm K (hinit es)); [symmetry; exact P|exact B].
Qed.
Lemma pinit_length es : length es = M -> length (pinit es) = M.
Proof.
  intros HL. unfold pinit. destruct weighted; [|exact Lp0]. rewrite cumulate_length, map_length. apply (sel_sort_length K HO). exact HL.
Qed.

(** *** The invariant *)
Variable Good : list (T * T) -> Prop.
Variable Pinv : list (T * T) -> list T -> Prop.
Variable Dinv : list (T * T) -> T -> list T -> Prop.
Hypothesis Good_prefix : forall es e, Good (es ++ [e]) -> Good es.
Hypothesis P_init : forall es, length es = M -> Good es -> Pinv es (pinit es).
Hypothesis P_bump : forall es e p k (b : bool), Good (es ++ [e]) -> (M <= length es)%nat -> length p = M -> Pinv es p ->
  (1 <= k)%nat -> (k <= M - 1)%nat -> (b = true -> weighted = true /\ k = 1%nat) ->
  Pinv (es ++ [e]) (bump K k (snd e) (if b then set_nth 0 (snd e) p else p)).
Hypothesis P_adj : forall es p i p', Good es -> length p = M -> (1 <= i)%nat -> (S i < M)%nat ->
     Moved K (at_ p (i - 1)) (at_ p i) (at_ p (S i)) p' -> Pinv es p -> Pinv es (set_nth i p' p).
Hypothesis D_init : forall es, length es = M -> Good es -> Dinv es (at_ (pinit es) 0) (md K m0).
Hypothesis D_step : forall es e p q d, Good (es ++ [e]) -> (M <= length es)%nat -> length p = M -> length d = M ->
  Pinv (es ++ [e]) p -> Dinv es q d ->
  exists d', des (total K snd (es ++ [e])) p d = Ok d' /\ length d' = M /\ Dinv (es ++ [e]) (at_ p 0) d'.

Lemma run_main es : (M <= length es)%nat -> Good es -> exists s, run es = Ok s /\
  ps_count K s = length es /\ ps_wsum K s = total K snd es /\
  let m := ps_marks K s in
  length (mh K m) = M /\ length (mp K m) = M /\ length (md K m) = M /\ Asc K M (mh K m) /\
  IsMin K (map fst es) (at_ (mh K m) 0) /\ IsMax K (map fst es) (at_ (mh K m) (M - 1)) /\
  Pinv es (mp K m) /\ Dinv es (at_ (mp K m) 0) (md K m).
Proof.
  induction es as [|e es IH] using rev_ind; intros HL HG; [cbn in HL; lia|].
  destruct (Nat.eq_dec (length (es ++ [e])) M) as [E|N].
  - eexists. split; [apply run_init; exact E|]. cbn [ps_count ps_wsum ps_marks mh mp md]. split; [reflexivity|]. split; [reflexivity|].
    destruct (hinit_spec _ E) as (A & B & C & D). split; [exact A|]. split; [apply pinit_length; exact E|].
    split; [exact Ld0|]. split; [exact B|]. split; [exact C|]. split; [exact D|]. split; [apply P_init; auto|apply D_init; auto].
  - rewrite app_length in HL, N. cbn in HL, N.
    destruct IH as (s & E & Hc & Hw & Lh & Lp & Ld & HA & Hmin & Hmax & HP & HD); [lia|eapply Good_prefix; exact HG|].
    rewrite run_snoc, E. cbn [obnd]. unfold psq_push, psq_operate. rewrite Hc, Hw.
    destruct (Nat.leb_spec (S (length es)) M); [lia|].
    set (m := ps_marks K s) in *. unfold msync.
    destruct (locate_spec K HO M (mh K m) (fst e) HM Lh HA) as (h' & k & EL & Lh' & HA' & Hk1 & Hk2 & Hk0 & E0 & EM).
    rewrite EL. cbn [obnd fst snd]. rewrite (nth_error_nth0 (mh K m) 0 0) by lia.
    set (b := weighted && ltb K (fst e) (at_ (mh K m) 0)).
    assert (HP1 : Pinv (es ++ [e]) (bump K k (snd e) (if b then set_nth 0 (snd e) (mp K m) else mp K m))).
    { apply P_bump; auto; [lia|]. unfold b. intros Hb. apply andb_true_iff in Hb. destruct Hb as [Hb1 Hb2]. auto. }
    set (p1 := bump K k (snd e) _) in *.
    assert (Lp1 : length p1 = M). { unfold p1. rewrite bump_length. destruct b; rewrite ?set_nth_length; exact Lp. }
    destruct (D_step es e p1 (at_ (mp K m) 0) (md K m) HG ltac:(lia) Lp1 Ld HP1 HD) as (d' & ED & Ld' & HD').
    rewrite (total_snoc K HK) in ED. rewrite ED. cbn [obnd].
    destruct (adjust_inv K HO M (fun p => Pinv (es ++ [e]) p /\ at_ p 0 = at_ p1 0)
                {| mh := h'; mp := p1; md := d' |}) as (s' & ES & R1 & R2 & R3 & R4 & [R5 R5'] & R6 & R7); cbn [mh mp md]; auto.
    { intros p i p' Lp' Hi1 Hi2 HMv [Hp1 Hp2]. split; [apply P_adj; auto|].
      rewrite (at_set K) by lia. destruct (Nat.eqb_spec i 0); [lia|exact Hp2]. }
    rewrite ES. cbn [obnd]. eexists. split; [reflexivity|]. cbn [ps_count ps_wsum ps_marks].
    cbn [mh mp md] in R3, R6, R7.
    split; [rewrite app_length; cbn; lia|]. split; [rewrite (total_snoc K HK); reflexivity|]. rewrite R3, R6, R7, R5', E0, EM.
    split; [exact R1|]. split; [exact R2|]. split; [exact Ld'|]. split; [exact R4|].
    rewrite map_app. cbn [map]. split; [apply (IsMin_snoc K HO); exact Hmin|]. split; [apply (IsMax_snoc K HO); exact Hmax|].
    split; [exact R5|exact HD'].
Qed.
End Run.
