From Coq Require Import List ZArith Arith Bool Lia.
From Verif Require Import Num NumFacts SpecStats SpecVector SpecInteger ModelBasic ModelPSquare ModelMinMax ModelVector
  ModelNumeric ModelInteger ModelValarray ProofVector ProofVector2.
Import ListNotations.
Open Scope nat_scope.

Section Fold.
Context {S X : Type}.
Definition run (f : S -> X -> outcome S) (xs : list X) (o : outcome S) : outcome S :=
  fold_left (fun o x => obnd o (fun s => f s x)) xs o.
Lemma run_UB f xs : run f xs UB = UB.
Proof. induction xs; cbn; auto. Qed.
(** [f] is [g] on the inputs in [P] and undefined on the others. *)
Lemma run_refine (f g : S -> X -> outcome S) (I : S -> Prop) (P : X -> Prop) :
  (forall s x, I s -> P x -> f s x = g s x /\ ((exists s', g s x = Ok s' /\ I s') \/ g s x = UB)) ->
  (forall s x, I s -> ~ P x -> f s x = UB) -> (forall x, P x \/ ~ P x) ->
  forall xs s, I s -> (Forall P xs -> run f xs (Ok s) = run g xs (Ok s)) /\ (~ Forall P xs -> run f xs (Ok s) = UB).
Proof.
  intros Hs Hu Hd. unfold run. induction xs as [|x xs IH]; intros s HI.
  - split; [reflexivity|]. intros H. exfalso. apply H. constructor.
  - cbn [fold_left obnd]. destruct (Hd x) as [HP|HP].
    + destruct (Hs s x HI HP) as [-> [(s' & -> & HI')| ->]].
      * destruct (IH s' HI') as [A B]. split; intros H.
        -- inversion_clear H. auto.
        -- apply B. intros H'. apply H. constructor; auto.
      * split; intros _; [|apply (run_UB f)]. rewrite (run_UB f xs : fold_left _ xs UB = UB). symmetry. apply (run_UB g).
    + split; intros H; [inversion_clear H; contradiction|]. rewrite (Hu s x HI HP). apply run_UB.
Qed.
End Fold.

Section Valarray.
Variable K : Num.
Local Notation T := (car K).
Lemma va_zip_eq op l r : length l = length r -> va_zip K op l r = vzip K op l r.
Proof. intros H. unfold va_zip. now rewrite H, Nat.eqb_refl. Qed.
Lemma va_zip_ne op l r : length l <> length r -> va_zip K op l r = UB.
Proof. intros H. unfold va_zip. destruct (Nat.eqb_spec (length l) (length r)); congruence. Qed.
Lemma vzip_ok op (l r : list T) : length l = length r -> exists m, vzip K op l r = Ok m /\ length m = length l.
Proof.
  intros H. rewrite (dim_vector (zero K) _ l eq_refl), (dim_vector (zero K) (length l) r (eq_sym H)).
  rewrite vzip_vector. eexists. split; [reflexivity|]. now rewrite !vector_length.
Qed.
Lemma vdivs_len (l : list T) c : length (vdivs K l c) = length l.
Proof. unfold vdivs. now rewrite map_length. Qed.
Lemma vmuls_len (l : list T) c : length (vmuls K l c) = length l.
Proof. unfold vmuls. now rewrite map_length. Qed.
Lemma plus_ok (l r : list T) : length l = length r -> exists m, vplus_assign K l r = Ok m /\ length m = length l.
Proof. intros H. unfold vplus_assign. rewrite (proj2 (Nat.eqb_eq _ _) H). now apply vzip_ok. Qed.
Lemma plus_ne (l r : list T) : length l <> length r -> vplus_assign K l r = UB.
Proof. intros H. unfold vplus_assign. destruct (Nat.eqb_spec (length l) (length r)); congruence. Qed.

Lemma dec_len {A} (d : nat) (x : list A) : length x = d \/ length x <> d.
Proof. lia. Qed.

(** sum, mean *)
Lemma va_sum_vec s0 xs : va_sum_run K s0 xs = vsum_run K s0 xs.
Proof. reflexivity. Qed.
Lemma va_mean_vec s0 xs : va_mean_run K s0 xs = vmean_run K s0 xs.
Proof. reflexivity. Qed.

(** immediate mean *)
Lemma imean_op_eq (m x : list T) c : length x = length m -> va_imm_mean_op K m c x = vimm_mean_op K m c x.
Proof. intros H. unfold va_imm_mean_op, vimm_mean_op. rewrite va_zip_eq; auto. now rewrite vmuls_len. Qed.
Lemma imean_op_ok (m x : list T) c : length x = length m -> exists r, vimm_mean_op K m c x = Ok r /\ length r = length m.
Proof.
  intros H. unfold vimm_mean_op. destruct (vzip_ok (add K) (vmuls K m (ofnat K (c - 1))) x) as (r & -> & E).
  { now rewrite vmuls_len. }
  cbn [obnd]. eexists. split; [reflexivity|]. rewrite vdivs_len, E, vmuls_len. auto.
Qed.
Lemma imean_op_ne (m x : list T) c : length x <> length m -> va_imm_mean_op K m c x = UB.
Proof. intros H. unfold va_imm_mean_op. rewrite va_zip_ne; auto. rewrite vmuls_len. auto. Qed.
Lemma va_imean_vec s0 xs : (AllDim (length s0) xs -> va_imean_run K s0 xs = vimean_run K s0 xs)
  /\ (~ AllDim (length s0) xs -> va_imean_run K s0 xs = UB).
Proof.
  destruct (run_refine (va_imean_step K)
    (fun s x => let cnt := S (fst s) in obnd (vimm_mean_op K (snd s) cnt x) (fun m => Ok (cnt, m)))
    (fun s => length (snd s) = length s0) (fun x => length x = length s0)) with (xs := xs) (s := (0, vdivs K s0 (one K))) as [A B].
  - intros [c m] x HI HP. cbn [fst snd] in *. unfold va_imean_step. cbn [fst snd]. rewrite imean_op_eq by congruence.
    split; auto. left. destruct (imean_op_ok m x (S c)) as (r & -> & Er); [congruence|]. cbn [obnd].
    eexists. split; [reflexivity|]. cbn. congruence.
  - intros [c m] x HI HP. cbn [fst snd] in *. unfold va_imean_step. cbn [fst snd]. rewrite imean_op_ne by congruence. reflexivity.
  - apply dec_len.
  - cbn. apply vdivs_len.
  - unfold run in A, B. split; intros H; unfold va_imean_run, vimean_run.
    + rewrite A by exact H. reflexivity.
    + rewrite B by exact H. reflexivity.
Qed.

(** variance *)
Lemma var_op_eq (v m x : list T) c : length x = length m -> length v = length m ->
  va_variance_op K v m c x = vvariance_op K v m c x.
Proof.
  intros H Hv. unfold va_variance_op, vvariance_op. destruct (Nat.ltb 1 c); auto.
  rewrite va_zip_eq by auto. destruct (vzip_ok (sub K) x m H) as (t & -> & Et). cbn [obnd].
  rewrite va_zip_eq by auto. destruct (vzip_ok (mul K) t t eq_refl) as (q & -> & Eq). cbn [obnd].
  apply va_zip_eq. rewrite !vdivs_len, vmuls_len. congruence.
Qed.
Lemma var_op_ok (v m x : list T) c : length x = length m -> length v = length m ->
  exists r, vvariance_op K v m c x = Ok r /\ length r = length m.
Proof.
  intros H Hv. unfold vvariance_op. destruct (Nat.ltb 1 c); [|now exists v].
  destruct (vzip_ok (sub K) x m H) as (t & -> & Et). cbn [obnd].
  destruct (vzip_ok (mul K) t t eq_refl) as (q & -> & Eq). cbn [obnd].
  match goal with |- exists r, vzip K ?o ?a ?b = _ /\ _ => destruct (vzip_ok o a b) as (r & -> & Er) end.
  { rewrite !vdivs_len, vmuls_len. congruence. }
  exists r. split; auto. rewrite Er, vdivs_len, vmuls_len. auto.
Qed.
Lemma va_var_vec s0 xs : (AllDim (length s0) xs -> va_var_run K s0 xs = vvar_run K s0 xs)
  /\ (~ AllDim (length s0) xs -> va_var_run K s0 xs = UB).
Proof.
  destruct (run_refine (va_var_step K)
    (fun s x => let '(cnt, mean, var) := s in let cnt := S cnt in
       obnd (vimm_mean_op K mean cnt x) (fun mean =>
       obnd (vvariance_op K var mean cnt x) (fun var => Ok (cnt, mean, var))))
    (fun s => length (snd (fst s)) = length s0 /\ length (snd s) = length s0) (fun x => length x = length s0))
    with (xs := xs) (s := (0, vdivs K s0 (one K), vdivs K s0 (one K))) as [A B].
  - intros [[c m] v] x [HI HJ] HP. cbn [fst snd] in *. unfold va_var_step. rewrite imean_op_eq by congruence.
    destruct (imean_op_ok m x (S c)) as (r & -> & Er); [congruence|]. cbn [obnd].
    rewrite var_op_eq by congruence. split; auto. left.
    destruct (var_op_ok v r x (S c)) as (u & -> & Eu); [congruence|congruence|]. cbn [obnd].
    eexists. split; [reflexivity|]. cbn. split; congruence.
  - intros [[c m] v] x [HI HJ] HP. cbn [fst snd] in *. unfold va_var_step. rewrite imean_op_ne by congruence. reflexivity.
  - apply dec_len.
  - cbn. split; apply vdivs_len.
  - unfold run in A, B. split; intros H; unfold va_var_run, vvar_run.
    + rewrite A by exact H. reflexivity.
    + rewrite B by exact H. reflexivity.
Qed.

(** moments *)
Lemma va_pow_eq f (x : list T) n : va_pow_fuel K f x n = vpow_fuel K f x n
  /\ forall y, vpow_fuel K f x n = Ok y -> length y = length x.
Proof.
  revert n. induction f as [|f IH]; intros n; [split; [reflexivity|discriminate]|].
  cbn [va_pow_fuel vpow_fuel]. destruct (Nat.eqb n 1). { split; auto. intros y E. now injection E as ->. }
  destruct (IH (Nat.div n 2)) as [-> HL]. destruct (vpow_fuel K f x (Nat.div n 2)) as [y| |]; cbn [obnd];
    try (split; [reflexivity|discriminate]).
  specialize (HL y eq_refl). rewrite va_zip_eq by auto. destruct (vzip_ok (mul K) y y eq_refl) as (z & -> & Ez). cbn [obnd].
  destruct (Nat.eqb (Nat.modulo n 2) 0). { split; auto. intros w E. injection E as <-. congruence. }
  assert (Hzx : length z = length x) by congruence.
  rewrite va_zip_eq by auto. split; auto. destruct (vzip_ok (mul K) z x Hzx) as (w & -> & Ew). intros w' E. injection E as <-. congruence.
Qed.
Lemma va_moment_vec N s0 xs : 1 <= N -> va_moment_run K N s0 xs = vmoment_run K N s0 xs
  /\ (~ AllDim (length s0) xs -> va_moment_run K N s0 xs = UB).
Proof.
  intros HN. assert (EQ : va_moment_run K N s0 xs = vmoment_run K N s0 xs).
  { unfold va_moment_run, vmoment_run, vmoment_sum. f_equal. generalize (Ok s0). induction xs as [|x xs IH]; intros o; [reflexivity|].
    cbn [fold_left]. rewrite IH. f_equal. destruct o as [s| |]; cbn; auto. unfold vmoment_op, va_pow, vpow.
    now destruct (va_pow_eq N x N) as [-> _]. }
  split; [exact EQ|]. intros H. rewrite EQ. unfold vmoment_run, vmoment_sum.
  destruct (run_refine (vmoment_op K N) (vmoment_op K N) (fun s => length s = length s0) (fun x => length x = length s0)) with (xs := xs) (s := s0) as [_ B].
  - intros s x HI HP. split; auto. unfold vmoment_op. rewrite vpow_npowf by auto. cbn [obnd]. left.
    destruct (plus_ok s (map (npowf K N) x)) as (r & -> & Er). { rewrite map_length. congruence. }
    exists r. split; auto. congruence.
  - intros s x HI HP. unfold vmoment_op. rewrite vpow_npowf by auto. cbn [obnd]. apply plus_ne. rewrite map_length. congruence.
  - apply dec_len.
  - reflexivity.
  - unfold run in B. rewrite B by exact H. reflexivity.
Qed.
Lemma va_lazy_variance_vec s0 xs : (AllDim (length s0) xs -> va_lazy_variance_run K s0 xs = vlazy_variance_run K s0 xs)
  /\ (~ AllDim (length s0) xs -> va_lazy_variance_run K s0 xs = UB).
Proof.
  destruct (va_moment_vec 2 s0 xs (le_S _ _ (le_n 1))) as [EM EU]. split; intros H.
  - unfold va_lazy_variance_run, vlazy_variance_run. rewrite EM, va_mean_vec.
    set (d := length s0) in *. rewrite (dim_vector (zero K) d s0 eq_refl).
    destruct (vmoment_run K 2 (vector d (fun j => nth j s0 (zero K))) xs) as [m2| |] eqn:E2; cbn [obnd]; auto.
    rewrite vmean_run_spec by exact H. cbn [obnd]. unfold vlazy_variance_result.
    rewrite va_zip_eq by auto. rewrite vzip_vector. cbn [obnd]. apply va_zip_eq. rewrite vector_length.
    unfold vmoment_run in E2. rewrite vmoment_sum_spec in E2 by auto. cbn [obnd] in E2.
    injection E2 as <-. unfold vmoment_result. rewrite vdivs_len. apply vector_length.
  - unfold va_lazy_variance_run. now rewrite EU.
Qed.

(** weighted *)
Lemma WDim_Forall d (h : list (list T * T)) : AllDim d (map fst h) <-> Forall (fun p => length (fst p) = d) h.
Proof. unfold AllDim. now rewrite Forall_map. Qed.
Lemma va_wsum_vec s0 h : va_weighted_sum_run K s0 h = vweighted_sum_run K s0 h
  /\ (~ AllDim (length s0) (map fst h) -> va_weighted_sum_run K s0 h = UB).
Proof.
  split; [reflexivity|]. rewrite WDim_Forall. intros H.
  destruct (run_refine (fun s p => vplus_assign K s (vmuls K (fst p) (snd p))) (fun s p => vplus_assign K s (vmuls K (fst p) (snd p)))
    (fun s => length s = length s0) (fun p : list T * T => length (fst p) = length s0)) with (xs := h) (s := vmuls K s0 (one K)) as [_ B].
  - intros s p HI HP. split; auto. left. destruct (plus_ok s (vmuls K (fst p) (snd p))) as (r & -> & Er).
    { rewrite vmuls_len. congruence. } exists r. split; auto. congruence.
  - intros s p HI HP. apply plus_ne. rewrite vmuls_len. congruence.
  - intros p. apply dec_len.
  - apply vmuls_len.
  - apply B. exact H.
Qed.
Lemma va_wmean_vec s0 h : va_weighted_mean_run K s0 h = vweighted_mean_run K s0 h
  /\ (~ AllDim (length s0) (map fst h) -> va_weighted_mean_run K s0 h = UB).
Proof. split; [reflexivity|]. intros H. unfold va_weighted_mean_run. destruct (va_wsum_vec s0 h) as [_ ->]; auto. Qed.
Lemma va_wimean_vec d (s0 : nat -> T) h : AllDim d (map fst h) ->
  va_wimean_run K (vector d s0) h = vwimean_run K (vector d s0) h.
Proof.
  intros H. rewrite vwimean_run_spec by exact H. unfold va_wimean_run.
  enough (E : fold_left (fun o p => obnd o (fun s => va_wimean_step K s p)) h
     (Ok (zero K, vdivs K (vmuls K (vector d s0) (one K)) (one K)))
   = Ok (vweight_sum K (zero K) h, vector d (fun j => wv_mean K (wvar_set_run K (s0 j) (zero K) (wcolumn (zero K) j h))))) by now rewrite E.
  induction h as [|[x w] h IH] using rev_ind.
  - cbn. rewrite vmuls_vector, vdivs_vector. reflexivity.
  - rewrite WDim_Forall in H. apply Forall_app in H as [H Hx]. inversion_clear Hx as [|? ? Hx' _]. cbn [fst] in Hx'.
    rewrite fold_left_app, IH by now apply WDim_Forall. cbn [fold_left obnd]. unfold va_wimean_step. cbn [fst snd].
    unfold va_imm_weighted_mean_op. rewrite (dim_vector (zero K) d x Hx') at 1. rewrite !vmuls_vector, va_zip_eq by now rewrite !vector_length.
    rewrite vzip_vector. cbn [obnd]. rewrite vdivs_vector. unfold vweight_sum. rewrite fold_left_app. cbn [fold_left snd].
    f_equal. f_equal. apply vector_ext. intros j _. rewrite wcol_snoc. unfold wvar_set_run. rewrite fold_left_app. cbn.
    fold (wvar_set_run K (s0 j) (zero K) (wcolumn (zero K) j h)). rewrite wvar_weight. reflexivity.
Qed.
Lemma va_wimean_dims s0 h : ~ AllDim (length s0) (map fst h) -> va_wimean_run K s0 h = UB.
Proof.
  rewrite WDim_Forall. intros H.
  destruct (run_refine (va_wimean_step K) (va_wimean_step K)
    (fun s => length (snd s) = length s0) (fun p : list T * T => length (fst p) = length s0)) with (xs := h) (s := (zero K, vdivs K (vmuls K s0 (one K)) (one K))) as [_ B].
  - intros [W m] [x w] HI HP. cbn [fst snd] in *. split; auto. left. unfold va_wimean_step, va_imm_weighted_mean_op. cbn [fst snd].
    assert (HL : length (vmuls K m (sub K (add K W w) w)) = length (vmuls K x w)) by (rewrite !vmuls_len; congruence).
    rewrite va_zip_eq by exact HL.
    destruct (vzip_ok (add K) _ _ HL) as (r & -> & Er). cbn [obnd]. eexists. split; [reflexivity|]. cbn. rewrite vdivs_len, Er, vmuls_len. auto.
  - intros [W m] [x w] HI HP. cbn [fst snd] in *. unfold va_wimean_step, va_imm_weighted_mean_op. cbn [fst snd].
    rewrite va_zip_ne; auto. rewrite !vmuls_len. congruence.
  - intros p. apply dec_len.
  - cbn. now rewrite vdivs_len, vmuls_len.
  - unfold va_wimean_run. unfold run in B. rewrite B by exact H. reflexivity.
Qed.

(** equality *)
Lemma va_all_true b : va_all b = true <-> Forall (fun x => x = true) b.
Proof.
  induction b as [|[|] b IH]; cbn.
  - split; constructor.
  - rewrite IH. split; intros H; [constructor; auto|now inversion_clear H].
  - split; [discriminate|]. intros H. inversion_clear H. discriminate.
Qed.
Lemma va_equal_spec (eq : T -> T -> bool) (Heq : forall a b, eq a b = true <-> a = b) (l r : list T) :
  (length l = length r -> va_equal K eq l r = Ok true <-> l = r)
  /\ (length l <> length r -> va_equal K eq l r = UB).
Proof.
  split; intros H; unfold va_equal.
  - rewrite H, Nat.eqb_refl. transitivity (va_all (map (fun p => eq (fst p) (snd p)) (combine l r)) = true).
    { split; [now injection 1|now intros ->]. }
    rewrite va_all_true, Forall_map. revert r H. induction l as [|a l IH]; intros [|b r] H; cbn in *; try discriminate.
    + split; auto.
    + injection H as H. split; intros E.
      * inversion_clear E as [|? ? E1 E2]. cbn in E1. apply Heq in E1. apply IH in E2; auto. congruence.
      * injection E as -> ->. constructor; [now apply Heq|]. apply IH; auto.
  - destruct (Nat.eqb_spec (length l) (length r)); congruence.
Qed.
End Valarray.

Section IntegerElements.
Variable E : itype.
Variable K : Num.
Local Notation F := (car K).
Local Notation col := (column 0%Z).
Local Notation wcol := (wcolumn 0%Z).

Lemma izip_spec op (l r : list Z) : length l = length r ->
  forall m, izip op l r = Ok m <-> length m = length l /\ forall j, j < length l -> op (nth j l 0%Z) (nth j r 0%Z) = Ok (nth j m 0%Z).
Proof.
  revert r. induction l as [|a l IH]; intros [|b r] H m; try discriminate.
  - cbn. split; [intros Em; injection Em as <-; split; [reflexivity|intros; lia]|].
    intros [Hm _]. destruct m; [reflexivity|discriminate].
  - injection H as H. cbn [izip]. split; intros Hm.
    + destruct (op a b) as [c| |] eqn:Ec; try discriminate. cbn [obnd] in Hm.
      destruct (izip op l r) as [m'| |] eqn:Em; try discriminate. cbn [obnd] in Hm. injection Hm as <-.
      apply IH in Em; auto. destruct Em as [E1 E2]. cbn [length]. split; [congruence|].
      intros [|j] Hj; cbn; auto. apply E2. lia.
    + destruct Hm as [E1 E2]. destruct m as [|c m]; [discriminate|]. cbn [length] in E1, E2.
      pose proof (E2 0 ltac:(lia)) as E0. cbn in E0. rewrite E0. cbn [obnd].
      assert (Em : izip op l r = Ok m).
      { apply IH; auto. split; [congruence|]. intros j Hj. exact (E2 (S j) ltac:(lia)). }
      now rewrite Em.
Qed.
Lemma imap_spec op (l : list Z) :
  forall m, imap op l = Ok m <-> length m = length l /\ forall j, j < length l -> op (nth j l 0%Z) = Ok (nth j m 0%Z).
Proof.
  induction l as [|a l IH]; intros m.
  - cbn. split; [intros Em; injection Em as <-; split; [reflexivity|intros; lia]|].
    intros [Hm _]. destruct m; [reflexivity|discriminate].
  - cbn [imap]. split; intros Hm.
    + destruct (op a) as [c| |] eqn:Ec; try discriminate. cbn [obnd] in Hm.
      destruct (imap op l) as [m'| |] eqn:Em; try discriminate. cbn [obnd] in Hm. injection Hm as <-.
      destruct (proj1 (IH m') eq_refl) as [E1 E2]. cbn [length]. split; [congruence|].
      intros [|j] Hj; cbn; auto. apply E2. lia.
    + destruct Hm as [E1 E2]. destruct m as [|c m]; [discriminate|]. cbn [length] in E1, E2.
      pose proof (E2 0 ltac:(lia)) as E0. cbn in E0. rewrite E0. cbn [obnd].
      assert (Em : imap op l = Ok m).
      { apply IH; auto. split; [congruence|]. intros j Hj. exact (E2 (S j) ltac:(lia)). }
      now rewrite Em.
Qed.
Lemma iplus_spec (l r m : list Z) : iplus_assign E l r = Ok m <->
  length r = length l /\ length m = length l /\ forall j, j < length l -> int_sum_op E (nth j l 0%Z) (nth j r 0%Z) = Ok (nth j m 0%Z).
Proof.
  unfold iplus_assign. destruct (Nat.eqb_spec (length l) (length r)) as [H|H].
  - rewrite (izip_spec _ l r H). split; [intros [? ?]; split; auto|intros (_ & ? & ?); split; auto].
  - split; [discriminate|]. intros [? _]. congruence.
Qed.

Lemma icol_snoc j xs x : col j (xs ++ [x]) = col j xs ++ [nth j x 0%Z].
Proof. unfold column. now rewrite map_app. Qed.
Lemma iwcol_snoc j (h : list (list Z * Z)) x w : wcol j (h ++ [(x, w)]) = wcol j h ++ [(nth j x 0%Z, w)].
Proof. unfold wcolumn. now rewrite map_app. Qed.
(** The sum is defined exactly when the lengths agree and every component's sum is. *)
Lemma ia_sum_spec d xs v :
  ia_sum_run E (vector d (fun _ => 0%Z)) xs = Ok v <->
  AllDim d xs /\ length v = d /\ forall j, j < d -> int_sum_run E (col j xs) = Ok (nth j v 0%Z).
Proof.
  revert v. induction xs as [|x xs IH] using rev_ind; intros v.
  - cbn. split.
    + intros H. injection H as <-. split; [constructor|]. split; [apply vector_length|]. intros j Hj. rewrite nth_vector by auto. reflexivity.
    + intros (_ & Hl & H). f_equal. rewrite (dim_vector 0%Z d v Hl). apply vector_ext. intros j Hj.
      specialize (H j Hj). cbn in H. congruence.
  - unfold ia_sum_run in *. rewrite fold_left_app. cbn [fold_left]. split; intros H.
    + destruct (fold_left _ xs (Ok (vector d (fun _ => 0%Z)))) as [s| |] eqn:Es; try discriminate. cbn [obnd] in H.
      destruct (proj1 (IH s) eq_refl) as (HD & Hl & Hs). apply iplus_spec in H as (Hx & Hv & H).
      split; [apply Forall_app; split; auto; repeat constructor; congruence|]. split; [congruence|].
      intros j Hj. rewrite icol_snoc. unfold int_sum_run. rewrite fold_left_app.
      fold (int_sum_run E (col j xs)). rewrite Hs by auto. cbn [map fold_left obnd]. apply H. congruence.
    + destruct H as (HD & Hl & Hs). apply AllDim_snoc in HD as [HD Hx].
      assert (Hcol : forall j, j < d -> exists s, int_sum_run E (col j xs) = Ok s /\ int_sum_op E s (nth j x 0%Z) = Ok (nth j v 0%Z)).
      { intros j Hj. specialize (Hs j Hj). rewrite icol_snoc in Hs. unfold int_sum_run in Hs.
        rewrite fold_left_app in Hs. fold (int_sum_run E (col j xs)) in Hs. cbn [map fold_left] in Hs.
        destruct (int_sum_run E (col j xs)) as [s| |]; try discriminate. exists s. auto. }
      set (s := vector d (fun j => match int_sum_run E (col j xs) with Ok a => a | _ => 0%Z end)).
      assert (Es : fold_left (fun o x => obnd o (fun s => iplus_assign E s x)) xs (Ok (vector d (fun _ => 0%Z))) = Ok s).
      { apply IH. split; auto. split; [apply vector_length|]. intros j Hj. unfold s. rewrite nth_vector by auto.
        destruct (Hcol j Hj) as (a & Ea & _). now rewrite Ea. }
      rewrite Es. cbn [obnd]. apply iplus_spec. unfold s. rewrite vector_length. repeat split; auto.
      intros j Hj. rewrite nth_vector by auto. destruct (Hcol j Hj) as (a & Ea & Ha). now rewrite Ea.
Qed.
Lemma int_mean_iff l (f : F) : int_mean_run E K l = Ok f <->
  exists s, int_sum_run E l = Ok s /\ f = fdiv_int K s (Z.of_nat (length l)).
Proof.
  unfold int_mean_run. destruct (int_sum_run E l) as [s| |]; cbn [obnd]; split; intros H; try discriminate.
  - injection H as <-. eauto.
  - destruct H as (t & Ht & ->). now injection Ht as ->.
  - destruct H as (t & Ht & _). discriminate.
  - destruct H as (t & Ht & _). discriminate.
Qed.
Lemma ia_mean_spec d xs v :
  ia_mean_run E K (vector d (fun _ => 0%Z)) xs = Ok v <->
  AllDim d xs /\ length v = d /\ forall j, j < d -> int_mean_run E K (col j xs) = Ok (nth j v (zero K)).
Proof.
  unfold ia_mean_run. split; intros H.
  - destruct (ia_sum_run E (vector d (fun _ => 0%Z)) xs) as [s| |] eqn:Es; try discriminate. cbn [obnd] in H. injection H as <-.
    apply ia_sum_spec in Es as (HD & Hl & Hs). rewrite map_length. repeat split; auto. intros j Hj.
    apply int_mean_iff. exists (nth j s 0%Z). split; auto. unfold column. rewrite map_length.
    rewrite (nth_indep _ _ (fdiv_int K 0 (Z.of_nat (length xs)))) by (rewrite map_length; lia).
    apply (map_nth (fun a => fdiv_int K a (Z.of_nat (length xs)))).
  - destruct H as (HD & Hl & Hs).
    set (s := vector d (fun j => match int_sum_run E (col j xs) with Ok a => a | _ => 0%Z end)).
    assert (Es : ia_sum_run E (vector d (fun _ => 0%Z)) xs = Ok s).
    { apply ia_sum_spec. split; auto. split; [apply vector_length|]. intros j Hj. unfold s. rewrite nth_vector by auto.
      specialize (Hs j Hj). apply int_mean_iff in Hs as (a & -> & _). reflexivity. }
    rewrite Es. cbn [obnd]. f_equal. unfold s. rewrite map_vector. rewrite (dim_vector (zero K) d v Hl) at 1.
    apply vector_ext. intros j Hj. specialize (Hs j Hj). apply int_mean_iff in Hs as (a & -> & ->).
    unfold column. now rewrite map_length.
Qed.

(** The immediate mean: every sample counts with its first d elements. *)
Lemma mixed_plus_long d (f : nat -> F) (x : list Z) : d <= length x ->
  mixed_plus K (vector d f) x = Ok (vector d (fun j => add K (f j) (of_Z K (nth j x 0%Z)))).
Proof.
  revert f x. induction d as [|d IH]; intros f x H; [reflexivity|]. destruct x as [|b x]; cbn in H; [lia|].
  unfold vector in *. cbn [seq map mixed_plus]. rewrite <- seq_shift, !map_map.
  rewrite (IH (fun j => f (S j)) x) by lia. reflexivity.
Qed.
Lemma mixed_plus_short (l : list F) (x : list Z) : length x < length l -> mixed_plus K l x = UB.
Proof.
  revert x. induction l as [|a l IH]; intros [|b x] H; cbn in *; try lia; auto. rewrite IH by lia. reflexivity.
Qed.
Lemma imean_count s0 (l : list F) : im_count K (imean_set_run K s0 l) = length l.
Proof.
  unfold imean_set_run. induction l as [|a l IHl] using rev_ind; auto.
  rewrite fold_left_app, app_length, Nat.add_1_r. cbn. now rewrite IHl.
Qed.
Lemma ia_imean_spec d xs : Forall (fun x => d <= length x) xs ->
  ia_imean_run K (vector d (fun _ => 0%Z)) xs = Ok (vector d (fun j => int_immediate_mean_run K (col j xs))).
Proof.
  intros H. unfold ia_imean_run.
  enough (EQ : fold_left (fun o x => obnd o (fun s => ia_imean_step K s x)) xs
     (Ok (0, map (fun a => div K (of_Z K a) (one K)) (vector d (fun _ => 0%Z))))
   = Ok (length xs, vector d (fun j => int_immediate_mean_run K (col j xs)))) by now rewrite EQ.
  induction xs as [|x xs IH] using rev_ind.
  - cbn. rewrite map_vector. reflexivity.
  - apply Forall_app in H as [H Hx]. inversion_clear Hx as [|? ? Hx' _]. rewrite fold_left_app, IH by auto.
    cbn [fold_left obnd]. unfold ia_imean_step. cbn [fst snd]. rewrite vmuls_vector, mixed_plus_long by auto. cbn [obnd].
    rewrite vdivs_vector, app_length, Nat.add_1_r. f_equal. f_equal. apply vector_ext. intros j _.
    unfold int_immediate_mean_run. rewrite icol_snoc, map_app. cbn [map]. unfold imean_set_run at 2. rewrite fold_left_app.
    fold (imean_set_run K (zero K) (map (of_Z K) (col j xs))). cbn.
    assert (EL : length (map (of_Z K) (col j xs)) = length xs) by (unfold column; now rewrite !map_length).
    rewrite imean_count, EL. reflexivity.
Qed.
Lemma ia_imean_short d xs : (exists x, In x xs /\ length x < d) -> ia_imean_run K (vector d (fun _ => 0%Z)) xs = UB.
Proof.
  intros (x & Hx & Hd). unfold ia_imean_run.
  destruct (run_refine (ia_imean_step K) (ia_imean_step K) (fun s => length (snd s) = d) (fun x => d <= length x))
    with (xs := xs) (s := (0, map (fun a => div K (of_Z K a) (one K)) (vector d (fun _ => 0%Z)))) as [_ B].
  - intros [c m] y HI HP. cbn [snd] in HI. split; auto. left. unfold ia_imean_step. cbn [fst snd].
    rewrite (dim_vector (zero K) d m HI), vmuls_vector, mixed_plus_long by auto. cbn [obnd]. eexists. split; [reflexivity|].
    cbn. now rewrite vdivs_len, vector_length.
  - intros [c m] y HI HP. cbn [snd] in HI. unfold ia_imean_step. cbn [fst snd]. rewrite mixed_plus_short; auto.
    rewrite vmuls_len. lia.
  - intros y. lia.
  - cbn. now rewrite map_length, vector_length.
  - unfold run in B. rewrite B; auto. intros HF. rewrite Forall_forall in HF. specialize (HF x Hx). lia.
Qed.

(** Weighted sums and means, elements not narrower than int. *)
Hypothesis HE : (32 <= bits E)%Z.
Lemma promote_E : promote E = E.
Proof. unfold promote. destruct (Z.ltb_spec (bits E) 32); [lia|reflexivity]. Qed.
Lemma common_E : common E E = E.
Proof. unfold common. rewrite promote_E, eqb_reflx, Z.ltb_irrefl. reflexivity. Qed.
Lemma conv_small z : (0 <= z <= 1)%Z -> conv E z = z.
Proof.
  intros H. unfold conv. assert (P : (2 ^ bits E = 2 * 2 ^ (bits E - 1))%Z).
  { rewrite <- Z.pow_succ_r by lia. f_equal. lia. }
  assert (Q : (2 ^ 31 <= 2 ^ (bits E - 1))%Z) by (apply Z.pow_le_mono_r; lia).
  destruct (signed E); rewrite Z.mod_small; lia.
Qed.
Lemma arith_zero : arith E E Z.mul 0 1 = Ok 0%Z.
Proof.
  unfold arith. rewrite common_E. cbv zeta. rewrite !conv_small by lia. cbn [Z.mul].
  assert (Q : (2 ^ 31 <= 2 ^ (bits E - 1))%Z) by (apply Z.pow_le_mono_r; lia).
  destruct (signed E) eqn:S; [|reflexivity]. unfold fits. rewrite S.
  destruct (Z.leb_spec (- 2 ^ (bits E - 1)) 0); [|lia]. destruct (Z.ltb_spec 0 (2 ^ (bits E - 1))); [reflexivity|lia].
Qed.
Lemma wsum_op_iff s x w r : int_weighted_sum_op E E s x w = Ok r <->
  exists p, arith E E Z.mul x w = Ok p /\ int_sum_op E s p = Ok r.
Proof.
  unfold int_weighted_sum_op, int_sum_op. rewrite common_E. destruct (arith E E Z.mul x w) as [p| |]; cbn [obnd]; split; intros H; try discriminate.
  - eauto.
  - destruct H as (q & Eq & H). now injection Eq as ->.
  - destruct H as (q & Eq & _). discriminate.
  - destruct H as (q & Eq & _). discriminate.
Qed.
Lemma ia_wsum_spec d h v :
  ia_weighted_sum_run E (vector d (fun _ => 0%Z)) h = Ok v <->
  AllDim d (map fst h) /\ length v = d /\ forall j, j < d -> int_weighted_sum_run E E (wcol j h) = Ok (nth j v 0%Z).
Proof.
  assert (I0 : imap (fun a => arith E E Z.mul a 1%Z) (vector d (fun _ => 0%Z)) = Ok (vector d (fun _ => 0%Z))).
  { apply imap_spec. split; [reflexivity|]. rewrite vector_length. intros j Hj. rewrite nth_vector by auto. apply arith_zero. }
  unfold ia_weighted_sum_run. rewrite I0.
  revert v. induction h as [|[x w] h IH] using rev_ind; intros v.
  - cbn. split.
    + intros H. injection H as <-. split; [constructor|]. split; [apply vector_length|]. intros j Hj. rewrite nth_vector by auto. reflexivity.
    + intros (_ & Hl & H). f_equal. rewrite (dim_vector 0%Z d v Hl). apply vector_ext. intros j Hj.
      specialize (H j Hj). cbn in H. congruence.
  - rewrite fold_left_app. cbn [fold_left fst snd]. rewrite map_app. cbn [map fst]. split; intros H.
    + destruct (fold_left _ h (Ok (vector d (fun _ => 0%Z)))) as [s| |] eqn:Es; try discriminate. cbn [obnd] in H.
      destruct (imap (fun a => arith E E Z.mul a w) x) as [q| |] eqn:Eq; try discriminate. cbn [obnd] in H.
      destruct (proj1 (IH s) eq_refl) as (HD & Hl & Hs). apply iplus_spec in H as (Hx & Hv & H). apply imap_spec in Eq as [Eq1 Eq2].
      split; [apply Forall_app; split; auto; repeat constructor; congruence|]. split; [congruence|].
      intros j Hj. rewrite iwcol_snoc. unfold int_weighted_sum_run. rewrite fold_left_app.
      fold (int_weighted_sum_run E E (wcol j h)). rewrite Hs by auto. cbn [map fold_left obnd fst snd]. apply wsum_op_iff.
      exists (nth j q 0%Z). split; [apply Eq2; congruence|apply H; congruence].
    + destruct H as (HD & Hl & Hs). apply AllDim_snoc in HD as [HD Hx].
      assert (Hcol : forall j, j < d -> exists s p, int_weighted_sum_run E E (wcol j h) = Ok s
                 /\ arith E E Z.mul (nth j x 0%Z) w = Ok p /\ int_sum_op E s p = Ok (nth j v 0%Z)).
      { intros j Hj. specialize (Hs j Hj). rewrite iwcol_snoc in Hs. unfold int_weighted_sum_run in Hs.
        rewrite fold_left_app in Hs. fold (int_weighted_sum_run E E (wcol j h)) in Hs. cbn [map fold_left fst snd] in Hs.
        destruct (int_weighted_sum_run E E (wcol j h)) as [s| |]; try discriminate. cbn [obnd] in Hs.
        apply wsum_op_iff in Hs as (p & Ep & Hp). exists s, p. auto. }
      set (s := vector d (fun j => match int_weighted_sum_run E E (wcol j h) with Ok a => a | _ => 0%Z end)).
      match goal with |- obnd ?o _ = _ => assert (Es : o = Ok s) end.
      { apply IH. split; auto. split; [apply vector_length|]. intros j Hj. unfold s. rewrite nth_vector by auto.
        destruct (Hcol j Hj) as (a & p & Ea & _). now rewrite Ea. }
      rewrite Es. cbn [obnd].
      set (q := vector d (fun j => match arith E E Z.mul (nth j x 0%Z) w with Ok a => a | _ => 0%Z end)).
      assert (Eq : imap (fun a => arith E E Z.mul a w) x = Ok q).
      { apply imap_spec. rewrite Hx. split; [apply vector_length|]. intros j Hj. unfold q. rewrite nth_vector by auto.
        destruct (Hcol j Hj) as (a & p & _ & Ep & _). now rewrite Ep. }
      rewrite Eq. cbn [obnd]. apply iplus_spec. unfold s, q. rewrite !vector_length. repeat split; auto.
      intros j Hj. rewrite !nth_vector by auto. destruct (Hcol j Hj) as (a & p & Ea & Ep & Ha). now rewrite Ea, Ep.
Qed.
Lemma ia_wmean_spec d h v : 0 < d ->
  ia_weighted_mean_run E K (vector d (fun _ => 0%Z)) h = Ok v <->
  AllDim d (map fst h) /\ length v = d /\ forall j, j < d -> int_weighted_mean_run E E K (wcol j h) = Ok (nth j v (zero K)).
Proof.
  intros Hd. unfold ia_weighted_mean_run, int_weighted_mean_run.
  assert (Hw : forall j, map snd (wcol j h) = map snd h). { intros j. unfold wcolumn. now rewrite map_map. }
  split; intros H.
  - destruct (ia_weighted_sum_run E (vector d (fun _ => 0%Z)) h) as [s| |] eqn:Es; try discriminate. cbn [obnd] in H.
    destruct (int_sum_run E (map snd h)) as [W| |] eqn:EW; try discriminate. cbn [obnd] in H. injection H as <-.
    apply ia_wsum_spec in Es as (HD & Hl & Hs). rewrite map_length. repeat split; auto. intros j Hj.
    rewrite Hs by auto. cbn [obnd]. rewrite Hw, EW. cbn [obnd]. f_equal.
    rewrite (nth_indep _ _ (fdiv_int K 0 W)) by (rewrite map_length; lia). symmetry. apply (map_nth (fun a => fdiv_int K a W)).
  - destruct H as (HD & Hl & Hs).
    set (s := vector d (fun j => match int_weighted_sum_run E E (wcol j h) with Ok a => a | _ => 0%Z end)).
    assert (Es : ia_weighted_sum_run E (vector d (fun _ => 0%Z)) h = Ok s).
    { apply ia_wsum_spec. split; auto. split; [apply vector_length|]. intros j Hj. unfold s. rewrite nth_vector by auto.
      specialize (Hs j Hj). destruct (int_weighted_sum_run E E (wcol j h)); try discriminate. reflexivity. }
    rewrite Es. cbn [obnd]. destruct (int_sum_run E (map snd h)) as [W| |] eqn:EW.
    + cbn [obnd]. f_equal. unfold s. rewrite map_vector. rewrite (dim_vector (zero K) d v Hl) at 1.
      apply vector_ext. intros j Hj. specialize (Hs j Hj). rewrite Hw, EW in Hs.
      destruct (int_weighted_sum_run E E (wcol j h)); try discriminate. cbn [obnd] in Hs. now injection Hs as <-.
    + specialize (Hs 0 Hd). rewrite Hw, EW in Hs. destruct (int_weighted_sum_run E E (wcol 0 h)); discriminate.
    + specialize (Hs 0 Hd). rewrite Hw, EW in Hs. destruct (int_weighted_sum_run E E (wcol 0 h)); discriminate.
Qed.
End IntegerElements.

(** ** Summary *)
Lemma valarray_same_type : forall (K : Num) (s0 : list (car K)) (xs : list (list (car K))),
  (AllDim (length s0) xs ->
     va_sum_run K s0 xs = vsum_run K s0 xs /\ va_mean_run K s0 xs = vmean_run K s0 xs
     /\ va_imean_run K s0 xs = vimean_run K s0 xs /\ va_var_run K s0 xs = vvar_run K s0 xs
     /\ va_lazy_variance_run K s0 xs = vlazy_variance_run K s0 xs
     /\ forall N, 1 <= N -> va_moment_run K N s0 xs = vmoment_run K N s0 xs)
  /\ (~ AllDim (length s0) xs ->
     va_sum_run K s0 xs = UB /\ va_mean_run K s0 xs = UB /\ va_imean_run K s0 xs = UB /\ va_var_run K s0 xs = UB
     /\ va_lazy_variance_run K s0 xs = UB /\ forall N, 1 <= N -> va_moment_run K N s0 xs = UB).
Proof.
  intros K s0 xs. destruct (va_imean_vec K s0 xs) as [A1 A2]. destruct (va_var_vec K s0 xs) as [B1 B2].
  destruct (va_lazy_variance_vec K s0 xs) as [C1 C2]. split; intros H.
  - repeat split; auto. intros N HN. apply va_moment_vec. exact HN.
  - split; [rewrite va_sum_vec; now apply vsum_dims|]. split; [rewrite va_mean_vec; now apply vmean_dims|].
    split; auto. split; auto. split; auto. intros N HN. now apply va_moment_vec.
Qed.
Lemma valarray_weighted_same_type : forall (K : Num) (s0 : list (car K)) (h : list (list (car K) * car K)),
  (AllDim (length s0) (map fst h) ->
     va_weighted_sum_run K s0 h = vweighted_sum_run K s0 h /\ va_weighted_mean_run K s0 h = vweighted_mean_run K s0 h
     /\ va_wimean_run K s0 h = vwimean_run K s0 h)
  /\ (~ AllDim (length s0) (map fst h) ->
     va_weighted_sum_run K s0 h = UB /\ va_weighted_mean_run K s0 h = UB /\ va_wimean_run K s0 h = UB).
Proof.
  intros K s0 h. destruct (va_wsum_vec K s0 h) as [A1 A2]. destruct (va_wmean_vec K s0 h) as [B1 B2]. split; intros H.
  - split; auto. split; auto. rewrite (dim_vector (zero K) (length s0) s0 eq_refl). now apply va_wimean_vec.
  - split; auto. split; auto. now apply va_wimean_dims.
Qed.
Lemma valarray_integer : forall (E : itype) (K : Num) (d : nat) (xs : list (list Z)),
  (forall v, ia_sum_run E (vector d (fun _ => 0%Z)) xs = Ok v <->
     AllDim d xs /\ length v = d /\ forall j, j < d -> int_sum_run E (column 0%Z j xs) = Ok (nth j v 0%Z))
  /\ (forall v, ia_mean_run E K (vector d (fun _ => 0%Z)) xs = Ok v <->
     AllDim d xs /\ length v = d /\ forall j, j < d -> int_mean_run E K (column 0%Z j xs) = Ok (nth j v (zero K)))
  /\ (AllDim d xs -> ia_imean_run K (vector d (fun _ => 0%Z)) xs
        = Ok (vector d (fun j => int_immediate_mean_run K (column 0%Z j xs)))).
Proof.
  intros E K d xs. split; [intros v; apply ia_sum_spec|]. split; [intros v; apply ia_mean_spec|].
  intros H. apply ia_imean_spec. eapply Forall_impl; [|exact H]. cbn. intros a ->. auto.
Qed.
Lemma valarray_integer_weighted : forall (E : itype) (K : Num) (d : nat) (h : list (list Z * Z)), (32 <= bits E)%Z -> 0 < d ->
  (forall v, ia_weighted_sum_run E (vector d (fun _ => 0%Z)) h = Ok v <->
     AllDim d (map fst h) /\ length v = d
     /\ forall j, j < d -> int_weighted_sum_run E E (wcolumn 0%Z j h) = Ok (nth j v 0%Z))
  /\ (forall v, ia_weighted_mean_run E K (vector d (fun _ => 0%Z)) h = Ok v <->
     AllDim d (map fst h) /\ length v = d
     /\ forall j, j < d -> int_weighted_mean_run E E K (wcolumn 0%Z j h) = Ok (nth j v (zero K))).
Proof.
  intros E K d h HE Hd. split; intros v; [apply ia_wsum_spec|apply ia_wmean_spec]; auto.
Qed.
Lemma valarray_mixed_lengths : forall (K : Num) (d : nat) (xs : list (list Z)),
  (Forall (fun x => d <= length x) xs ->
     ia_imean_run K (vector d (fun _ => 0%Z)) xs = ia_imean_run K (vector d (fun _ => 0%Z)) (map (firstn d) xs)
     /\ exists v, ia_imean_run K (vector d (fun _ => 0%Z)) xs = Ok v)
  /\ ((exists x, In x xs /\ length x < d) -> ia_imean_run K (vector d (fun _ => 0%Z)) xs = UB).
Proof.
  intros K d xs. split; [|apply ia_imean_short]. intros H.
  rewrite !ia_imean_spec; auto.
  - split; [|eauto]. f_equal. apply vector_ext. intros j Hj. f_equal. unfold column. rewrite map_map. apply map_ext_in.
    intros x Hx. rewrite Forall_forall in H. specialize (H x Hx). rewrite <- (firstn_skipn d x) at 1.
    rewrite app_nth1; auto. rewrite firstn_length. lia.
  - rewrite Forall_map. eapply Forall_impl; [|exact H]. cbn. intros a Ha. rewrite firstn_length. lia.
Qed.
Lemma valarray_equality : forall (K : Num) (eq : car K -> car K -> bool), (forall a b, eq a b = true <-> a = b) ->
  forall l r, (length l = length r -> va_equal K eq l r = Ok true <-> l = r) /\ (length l <> length r -> va_equal K eq l r = UB).
Proof. exact va_equal_spec. Qed.
