(** The P-square estimators under a change of the unit of the samples: x becomes a x + b, a > 0. *)
From Coq Require Import List Arith Bool Lia Field Permutation Sorted.
From Verif Require Import Num NumFacts ModelRolling ModelDensity ModelPSquare SpecStats SpecDensity SpecTail SpecPSquare
  ProofBasic ProofOrder ProofRollingBuf ProofTail ProofPSquare ProofPSquareRun ProofPSquareW ProofPSquareInst.
Import ListNotations.

Lemma map_set_nth' {B C} (g : B -> C) i v l : map g (set_nth i v l) = set_nth i (g v) (map g l).
Proof. revert i; induction l as [|x l IH]; intros [|i]; cbn; [reflexivity| |reflexivity|]; [reflexivity|f_equal; apply IH]. Qed.

Section Affine.
Variable K : Num.
Hypothesis HO : OrderedLaws K.
Let HK : FieldLaws K := ord_field K HO.
Local Notation T := (car K).
Local Notation "0" := (zero K) : num_scope.
Local Notation "1" := (one K) : num_scope.
Local Notation "x + y" := (add K x y) : num_scope.
Local Notation "x - y" := (sub K x y) : num_scope.
Local Notation "x * y" := (mul K x y) : num_scope.
Local Notation "x / y" := (div K x y) : num_scope.
Local Notation "- x" := (opp K x) : num_scope.
Local Notation "# n" := (ofnat K n) (at level 2) : num_scope.
Local Notation "x < y" := (klt K x y) : num_scope.
Local Notation "x <= y" := (kle K x y) : num_scope.
Local Open Scope num_scope.
Add Field KfieldAff : (fl_field K HK).
Variables a b : T.
Hypothesis Ha : 0 < a.
Definition aff (x : T) : T := a * x + b.

Lemma div_def x y : x / y = x * inv K y.
Proof. apply (Fdiv_def (fl_field K HK)). Qed.
Lemma aff_ltb x y : ltb K (aff x) (aff y) = ltb K x y.
Proof.
  unfold aff. destruct (ltb K x y) eqn:E.
  - apply (kadd_lt K HO). replace (a * x) with (x * a) by ring. replace (a * y) with (y * a) by ring. apply (kmul_lt K HO); assumption.
  - apply (kadd_le K HO). replace (a * x) with (x * a) by ring. replace (a * y) with (y * a) by ring.
    apply (kmul_le K HO); [apply (klt_le K HO); exact Ha|exact E].
Qed.
Lemma aff_leb x y : leb K (aff x) (aff y) = leb K x y.
Proof. unfold leb. rewrite aff_ltb. reflexivity. Qed.
Lemma aff_inj x y : aff x = aff y -> x = y.
Proof.
  intros E. apply (ord_total K HO); rewrite <- aff_ltb, E; apply (ord_irrefl K HO).
Qed.

Definition affm (m : marks K) : marks K := {| mh := map aff (mh K m); mp := mp K m; md := md K m |}.
Definition affe (e : T * T) : T * T := (aff (fst e), snd e).

Lemma aff_upper l x : upper_bound K (map aff l) (aff x) = upper_bound K l x.
Proof. induction l as [|y l IH]; cbn [map upper_bound]; [reflexivity|]. rewrite aff_ltb, IH. reflexivity. Qed.
Lemma aff_locate M h x : locate K M (map aff h) (aff x) = obnd (locate K M h x) (fun hk => Ok (map aff (fst hk), snd hk)).
Proof.
  unfold locate. rewrite !nth_error_map. destruct (nth_error h 0) as [y|]; [|reflexivity].
  destruct (nth_error h (M - 1)) as [z|]; [|reflexivity]. cbn [option_map]. rewrite aff_ltb, aff_leb.
  destruct (ltb K x y); [cbn [obnd fst snd]; rewrite map_set_nth'; reflexivity|].
  destruct (leb K z x); cbn [obnd fst snd]; [rewrite map_set_nth'; reflexivity|]. rewrite aff_upper. reflexivity.
Qed.
Lemma aff_adjust_at s i : adjust_at K (affm s) i = obnd (adjust_at K s i) (fun s => Ok (affm s)).
Proof.
  unfold adjust_at. cbn [affm mh mp md]. rewrite !nth_error_map.
  destruct (nth_error (mh K s) (i - 1)) as [hl|]; [|reflexivity].
  destruct (nth_error (mh K s) i) as [hc|]; [|reflexivity].
  destruct (nth_error (mh K s) (i + 1)) as [hr|]; [|reflexivity]. cbn [option_map].
  destruct (nth_error (mp K s) (i - 1)) as [pl|]; [|reflexivity].
  destruct (nth_error (mp K s) i) as [pc|]; [|reflexivity].
  destruct (nth_error (mp K s) (i + 1)) as [pr|]; [|reflexivity].
  destruct (nth_error (md K s) i) as [dc|]; [|reflexivity].
  set (d := dc - pc). set (dp := pr - pc). set (dm := pl - pc). cbv zeta.
  destruct ((leb K 1 d && ltb K 1 dp) || (leb K d (- (1)) && ltb K dm (- (1)))); [|reflexivity].
  set (sg := if ltb K 0 d then 1 else - (1)).
  assert (E1 : aff hc + sg / (dp - dm) * ((sg - dm) * ((aff hr - aff hc) / dp) + (dp - sg) * ((aff hl - aff hc) / dm))
               = aff (hc + sg / (dp - dm) * ((sg - dm) * ((hr - hc) / dp) + (dp - sg) * ((hl - hc) / dm)))).
  { unfold aff. rewrite !div_def. ring. }
  rewrite E1. set (h := hc + sg / (dp - dm) * _). rewrite !aff_ltb.
  assert (E2 : aff hc + (aff hr - aff hc) / dp = aff (hc + (hr - hc) / dp)) by (unfold aff; rewrite !div_def; ring).
  assert (E3 : forall y, aff y - (aff hl - aff hc) / dm = aff (y - (hl - hc) / dm)) by (intros y; unfold aff; rewrite !div_def; ring).
  rewrite E2.
  cbn [obnd]. unfold affm. cbn [mh mp md]. rewrite map_set_nth'. f_equal. f_equal. f_equal.
  destruct (negb (keqb K dp 0) && negb (keqb K dm 0) && negb (keqb K dp dm) && ltb K hl h && ltb K h hr); [reflexivity|].
  destruct (ltb K 0 d), (ltb K d 0); rewrite ?E3; reflexivity.
Qed.
Lemma aff_adjust M s : adjust K M (affm s) = obnd (adjust K M s) (fun s => Ok (affm s)).
Proof.
  unfold adjust. generalize (seq 1 (M - 2)). intros l. induction l as [|i l IH] using rev_ind; [reflexivity|].
  rewrite !fold_left_app, IH. cbn [fold_left]. destruct (fold_left _ l (Ok s)); cbn [obnd]; try reflexivity. apply aff_adjust_at.
Qed.
Lemma aff_msync M reset des s x w : msync K M reset des (affm s) (aff x) w = obnd (msync K M reset des s x w) (fun s => Ok (affm s)).
Proof.
  unfold msync. cbn [affm mh mp md]. rewrite aff_locate. destruct (locate K M (mh K s) x) as [[h k]| |]; cbn [obnd fst snd]; try reflexivity.
  rewrite nth_error_map.
  assert (E : match option_map aff (nth_error (mh K s) 0) with Some a => if reset && ltb K (aff x) a then set_nth 0 w (mp K s) else mp K s | None => mp K s end
            = match nth_error (mh K s) 0 with Some a => if reset && ltb K x a then set_nth 0 w (mp K s) else mp K s | None => mp K s end).
  { destruct (nth_error (mh K s) 0); cbn [option_map]; [rewrite aff_ltb|]; reflexivity. }
  rewrite E. destruct (des _ (md K s)); cbn [obnd]; try reflexivity. apply (aff_adjust M {| mh := h; mp := _; md := _ |}).
Qed.
Lemma aff_insert x l : std_insert K (aff x) (map aff l) = map aff (std_insert K x l).
Proof. induction l as [|y l IH]; cbn [map std_insert]; [reflexivity|]. rewrite aff_ltb. destruct (ltb K y x); cbn [map]; [f_equal; exact IH|reflexivity]. Qed.
Lemma aff_sort l : std_sort K (map aff l) = map aff (std_sort K l).
Proof. unfold std_sort. induction l as [|y l IH]; cbn [map fold_right]; [reflexivity|]. rewrite IH. apply aff_insert. Qed.
Lemma aff_min_element l : forall i bi m, min_element_from K (map affe l) i bi (aff m) = min_element_from K l i bi m.
Proof. induction l as [|e l IH]; intros i bi m; cbn [map min_element_from]; [reflexivity|]. cbn [affe fst]. rewrite aff_ltb. destruct (ltb K (fst e) m); apply IH. Qed.
Lemma aff_sel_sort n : forall l, sel_sort K n (map affe l) = map affe (sel_sort K n l).
Proof.
  induction n as [|n IH]; intros [|e l]; cbn [map sel_sort]; try reflexivity. cbn [affe fst].
  change (aff (fst e), snd e) with (affe e). rewrite aff_min_element. destruct (min_element_from K l 1 0 (fst e)) as [|d]; cbn [map].
  - f_equal. apply IH.
  - f_equal; [apply map_nth|]. rewrite <- map_set_nth'. apply IH.
Qed.

Variable M : nat.
Variable weighted : bool.
Variable cum : nat.
Variable des : T -> list T -> list T -> outcome (list T).
Definition affs (s : psq K) : psq K := {| ps_count := ps_count K s; ps_wsum := ps_wsum K s; ps_marks := affm (ps_marks K s) |}.
Lemma combine_aff h p : combine (map aff h) p = map affe (combine h p).
Proof. revert p; induction h as [|x h IH]; intros [|y p]; cbn; try reflexivity. f_equal. apply IH. Qed.
Lemma aff_operate cnt W m x w :
  psq_operate K M weighted cum des cnt W (affm m) (aff x) w = obnd (psq_operate K M weighted cum des cnt W m x w) (fun s => Ok (affm s)).
Proof.
  unfold psq_operate. cbn [affm mh mp md]. destruct (Nat.leb cnt M); [|apply aff_msync].
  rewrite <- map_set_nth'. destruct (Nat.eqb cnt M); [|reflexivity]. destruct weighted; cbn [obnd affm mh mp md]; f_equal; unfold affm; cbn [mh mp md]; f_equal.
  - rewrite combine_aff, aff_sel_sort, !map_map. reflexivity.
  - rewrite combine_aff, aff_sel_sort, !map_map. reflexivity.
  - apply aff_sort.
Qed.
Lemma aff_push s x w : psq_push K M weighted cum des (affs s) (aff x) w = obnd (psq_push K M weighted cum des s x w) (fun s => Ok (affs s)).
Proof.
  unfold psq_push. cbn [affs ps_count ps_wsum ps_marks]. rewrite aff_operate. destruct (psq_operate K M weighted cum des _ _ _ x w); reflexivity.
Qed.
Variable m0 : marks K.
Hypothesis HM : (2 <= M)%nat.
Hypothesis Lh0 : length (mh K m0) = M.
Hypothesis Lp0 : length (mp K m0) = M.
Hypothesis Ld0 : length (md K m0) = M.
Lemma aff_run0 es : psq_run K M weighted cum des (affm m0) (map affe es) = obnd (psq_run K M weighted cum des m0 es) (fun s => Ok (affs s)).
Proof.
  unfold psq_run. induction es as [|e es IH] using rev_ind; [reflexivity|].
  rewrite map_app, !fold_left_app, IH. cbn [map fold_left affe fst snd].
  destruct (fold_left _ es _); cbn [obnd]; try reflexivity. apply aff_push.
Qed.
(** The initial heights do not matter once M samples are in. *)
Lemma aff_run es : (M <= length es)%nat ->
  psq_run K M weighted cum des m0 (map affe es) = obnd (psq_run K M weighted cum des m0 es) (fun s => Ok (affs s)).
Proof.
  intros HL. rewrite <- aff_run0. rewrite <- (firstn_skipn M es), map_app. unfold psq_run. rewrite !fold_left_app. f_equal.
  set (l := map affe (firstn M es)).
  assert (L : length l = M) by (unfold l; rewrite map_length, firstn_length; lia).
  assert (E1 := run_init K HO M weighted cum des m0 HM Lh0 Lp0 Ld0 l L).
  assert (E2 := run_init K HO M weighted cum des (affm m0) HM). cbn [affm mh mp md] in E2. rewrite map_length in E2.
  specialize (E2 Lh0 Lp0 Ld0 l L). unfold run, psq_run in E1, E2. rewrite E1, E2. reflexivity.
Qed.
End Affine.
