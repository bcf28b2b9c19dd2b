(** What the accumulators store. *)
From Coq Require Import List Arith Bool Lia ZArith QArith Qcanon.
From Verif Require Import Num ModelRolling ModelDensity ModelPSquare ModelTail ModelFramework ModelLibrary ModelSets ModelRollingSets ModelWhole SpecMemory.
From Verif Require Import ProofRollingBuf ProofFrameworkRef ProofFrameworkRun ProofTailTop ProofFrameworkEx ProofWholeEx NumFacts.
Import ListNotations.
Local Open Scope nat_scope.

(** ** Density *)
Section Dens.
Variable K : Num.
Variable E : Type.
Variables (val amt : E -> car K) (den : nat -> car K -> car K) (c b : nat).
Definition dens_ok (d : dens K E) : Prop :=
  length (de_cache K E d) = c /\ length (de_bins K E d) = (b + 2)%nat /\ length (de_pos K E d) = (b + 2)%nat /\ length (de_hist K E d) = (b + 2)%nat.
Lemma bin_add_length pos bins e bins' : bin_add K E val amt b pos bins e = Ok bins' -> length bins' = length bins.
Proof.
  unfold bin_add. destruct (bin_index K b pos (val e)) as [i| |]; try discriminate. destruct (nth_error bins i); try discriminate.
  intros X; injection X as <-. apply set_nth_length.
Qed.
Lemma bin_add_all_length pos es : forall bins bins', bin_add_all K E val amt b pos bins es = Ok bins' -> length bins' = length bins.
Proof.
  unfold bin_add_all. induction es as [|e es IH]; cbn [fold_left]; intros bins bins' F; [injection F as <-; reflexivity|].
  destruct (bin_add K E val amt b pos bins e) as [b1| |] eqn:A1.
  - rewrite (IH _ _ F). exact (bin_add_length _ _ _ _ A1).
  - exfalso. clear -F. induction es; cbn in F; [discriminate|auto].
  - exfalso. clear -F. induction es; cbn in F; [discriminate|auto].
Qed.
Lemma dens_operate_ok cnt mn mx ws d e d' : dens_ok d -> dens_operate K E val amt c b cnt mn mx ws d e = Ok d' -> dens_ok d'.
Proof.
  intros (I1 & I2 & I3 & I4). unfold dens_operate. intros X.
  assert (HP : length (if Nat.eqb cnt c then bin_positions K b mn mx else de_pos K E d) = (b + 2)%nat).
  { destruct (Nat.eqb cnt c); [|exact I3]. unfold bin_positions. rewrite map_length, seq_length. reflexivity. }
  match type of X with match ?o with _ => _ end = _ => destruct o as [bins| |] eqn:EB; try discriminate X end. injection X as <-.
  split; [|split; [|split]]; cbn [de_cache de_bins de_pos de_hist]; auto.
  - destruct (Nat.leb cnt c); [rewrite set_nth_length|]; exact I1.
  - rewrite <- I2. destruct (Nat.eqb cnt c); [exact (bin_add_all_length _ _ _ _ EB)|]. destruct (Nat.ltb c cnt); [exact (bin_add_length _ _ _ _ EB)|]. injection EB as <-. reflexivity.
Qed.
Lemma dens_extract_ok d : dens_ok d -> dens_ok (dens_extract K E den d).
Proof.
  intros (I1 & I2 & I3 & I4). unfold dens_extract. destruct (de_dirty K E d); [|repeat split; assumption].
  repeat split; cbn [de_cache de_bins de_pos de_hist]; auto. rewrite map_length, combine_length, I2, I3. lia.
Qed.
Lemma dens_init_ok lo hi s0 e0 : dens_ok (dens_init K E lo hi c b s0 e0).
Proof. repeat split; cbn [dens_init de_cache de_bins de_pos de_hist]; apply repeat_length. Qed.
Lemma dens_ok_elements d : dens_ok d -> dens_elements K d = (c + 3 * (b + 2))%nat.
Proof. intros (I1 & I2 & I3 & I4). unfold dens_elements. lia. Qed.
Lemma dens_run_ok lo hi s0 e0 ops : forall s, dens_run K E val amt den lo hi c b (dens_init K E lo hi c b s0 e0) ops = Ok s -> dens_ok s.
Proof.
  unfold dens_run. induction ops as [|o ops IH] using rev_ind; intros s R.
  - injection R as <-. apply dens_init_ok.
  - rewrite fold_left_app in R. cbn [fold_left] in R. destruct (fold_left _ ops _) as [s1| |]; try discriminate R. specialize (IH s1 eq_refl).
    destruct o as [e|]; cbn [dens_step] in R; [exact (dens_operate_ok _ _ _ _ _ _ _ IH R)|injection R as <-; exact (dens_extract_ok _ IH)].
Qed.
End Dens.

(** ** P-square *)
Section Psq.
Variable K : Num.
Local Notation T := (car K).
Variable M : nat.
Definition marks_ok (m : marks K) : Prop := length (mh K m) <= M /\ length (mp K m) <= M /\ length (md K m) <= M.
Lemma marks_ok_elements m : marks_ok m -> marks_elements K m <= 3 * M.
Proof. intros (I1 & I2 & I3). unfold marks_elements. lia. Qed.
Lemma locate_length h x h' k : locate K M h x = Ok (h', k) -> length h' = length h.
Proof.
  unfold locate. destruct (nth_error h 0), (nth_error h (M - 1)); try discriminate. destruct (ltb K x c); [intros X; injection X as <- _; exact (set_nth_length 0 x h)|].
  destruct (leb K c0 x); intros X; injection X as <- _; [exact (set_nth_length (M - 1) x h)|reflexivity].
Qed.
Lemma bump_length k w (p : list T) : length (bump K k w p) = length p.
Proof. unfold bump. rewrite app_length, map_length, firstn_length, skipn_length. lia. Qed.
Lemma adjust_at_ok m i m' : marks_ok m -> adjust_at K m i = Ok m' -> marks_ok m'.
Proof.
  intros I. unfold adjust_at. destruct (nth_error (mh K m) (i - 1)), (nth_error (mh K m) i), (nth_error (mh K m) (i + 1)); try discriminate.
  destruct (nth_error (mp K m) (i - 1)), (nth_error (mp K m) i), (nth_error (mp K m) (i + 1)), (nth_error (md K m) i); try discriminate.
  match goal with |- (if ?c then _ else _) = _ -> _ => destruct c end; intros X; injection X as <-; [|exact I].
  destruct I as (I1 & I2 & I3). split; [|split]; cbn [mh mp md]; rewrite ?set_nth_length; assumption.
Qed.
Lemma adjust_ok m m' : marks_ok m -> adjust K M m = Ok m' -> marks_ok m'.
Proof.
  unfold adjust. generalize (seq 1 (M - 2)). intros is. revert m. induction is as [|i is IH]; cbn [fold_left obnd]; intros m I X; [injection X as <-; exact I|].
  destruct (adjust_at K m i) as [m1| |] eqn:A1.
  - exact (IH m1 (adjust_at_ok _ _ _ I A1) X).
  - exfalso. clear -X. induction is; cbn in X; [discriminate|auto].
  - exfalso. clear -X. induction is; cbn in X; [discriminate|auto].
Qed.
Lemma std_insert_length x (l : list T) : length (std_insert K x l) = S (length l).
Proof. induction l as [|y l IH]; cbn; [reflexivity|]. destruct (ltb K y x); cbn; [rewrite IH|]; reflexivity. Qed.
Lemma std_sort_length (l : list T) : length (std_sort K l) = length l.
Proof. induction l as [|x l IH]; cbn; [reflexivity|]. rewrite std_insert_length. f_equal. exact IH. Qed.
Lemma sel_sort_length f : forall l : list (T * T), length (sel_sort K f l) <= f.
Proof. induction f as [|f IH]; intros [|x l]; cbn; try lia. destruct (min_element_from K l 1 0 (fst x)); cbn; apply le_n_S, IH. Qed.
Lemma cumulate_length c (l : list T) : length (cumulate K c l) = length l.
Proof.
  destruct l as [|x l]; [reflexivity|]. cbn. f_equal. revert x l. induction (c - 1) as [|n IH]; intros x l; [reflexivity|]. destruct l as [|y l]; [reflexivity|]. cbn. f_equal. apply IH.
Qed.
Lemma operate_ok weighted cum des cnt W m x w m' :
  (forall W p d d', des W p d = Ok d' -> length d <= M -> length d' <= M) ->
  marks_ok m -> psq_operate K M weighted cum des cnt W m x w = Ok m' -> marks_ok m'.
Proof.
  intros HD I. pose proof I as (I1 & I2 & I3). unfold psq_operate. destruct (Nat.leb cnt M).
  - set (h := set_nth (cnt - 1) x (mh K m)). set (p := if weighted then set_nth (cnt - 1) w (mp K m) else mp K m).
    assert (Lh : length h = length (mh K m)) by apply set_nth_length.
    assert (Lp : length p = length (mp K m)) by (unfold p; destruct weighted; [apply set_nth_length|reflexivity]).
    destruct (Nat.eqb cnt M); [destruct weighted|]; intros X; injection X as <-; split; try split; cbn [mh mp md]; try lia.
    + rewrite map_length. apply sel_sort_length.
    + rewrite cumulate_length, map_length. apply sel_sort_length.
    + rewrite std_sort_length. lia.
  - unfold msync. destruct (locate K M (mh K m) x) as [[h k]| |] eqn:EL; cbn [obnd]; try discriminate. cbn [fst snd].
    set (p0 := match nth_error (mh K m) 0 with Some a => _ | None => _ end).
    assert (Lp : length p0 = length (mp K m)).
    { unfold p0. destruct (nth_error (mh K m) 0); [|reflexivity]. destruct (weighted && ltb K x c); [apply set_nth_length|reflexivity]. }
    destruct (des W (bump K k w p0) (md K m)) as [d| |] eqn:ED; cbn [obnd]; try discriminate. apply adjust_ok. apply locate_length in EL.
    split; [|split]; cbn [mh mp md]; [lia|rewrite bump_length; lia|exact (HD _ _ _ _ ED I3)].
Qed.
End Psq.
Section Des.
Variable K : Num.
Lemma des_inc_length inc M W p d d' : des_inc K inc W p d = Ok d' -> length d <= M -> length d' <= M.
Proof. unfold des_inc. intros X; injection X as <-. rewrite map_length, combine_length. lia. Qed.
Lemma wpq_des_length pr W p d d' : wpq_des K pr W p d = Ok d' -> length d <= 5 -> length d' <= 5.
Proof. unfold wpq_des. destruct (nth_error p 0); try discriminate. intros X; injection X as <-. reflexivity. Qed.
Lemma wcd_des_length b W p d d' : wcd_des K b W p d = Ok d' -> length d <= b + 1 -> length d' <= b + 1.
Proof. unfold wcd_des. destruct (nth_error p 0), (nth_error d 0); try discriminate. intros X; injection X as <-. cbn [length]. rewrite map_length, seq_length. lia. Qed.
Lemma all_read_length {A} (l : list (option A)) : forall r, all_read l = Ok r -> length r = length l.
Proof.
  induction l as [|[a|] l IH]; cbn; intros r X; try discriminate X; [injection X as <-; reflexivity|].
  destruct (all_read l) as [r'| |]; cbn in X; try discriminate X. injection X as <-. cbn. f_equal. exact (IH r' eq_refl).
Qed.
Lemma wext_des_length probs W p d d' : wext_des K probs W p d = Ok d' -> length d <= ext_markers K probs -> length d' <= ext_markers K probs.
Proof. unfold wext_des. destruct (nth_error p 0); try discriminate. intros X _. rewrite (all_read_length _ _ X), map_length, seq_length. lia. Qed.
Lemma ext_inc_length (l : list (car K)) : length (ext_inc K l) = 2 * length l - 1.
Proof. induction l as [|a [|b l] IH]; [reflexivity..|]. change (ext_inc K (a :: b :: l)) with (a :: mul K (half K) (add K a b) :: ext_inc K (b :: l)). cbn [length] in *. rewrite IH. lia. Qed.
Lemma ext_init_ok probs : marks_ok K (ext_markers K probs) (ext_init K probs).
Proof.
  split; [|split]; cbn [ext_init mh mp md]; rewrite ?repeat_length, ?map_length, ?seq_length; try lia.
  unfold ext_incs. rewrite ext_inc_length. cbn [length]. rewrite app_length. unfold ext_markers. cbn [length]. lia.
Qed.
End Des.

(** ** Tails *)
Section Tail.
Variable H : HeapOps.
Hypothesis HP : InPlace H.
Variables A V : Type.
Variable pred : A -> A -> bool.
Definition tail_ok (k nv : nat) (s : tail_state A V) : Prop :=
  length (tl_samples s) = k /\ length (tl_indices s) <= k /\ length (tl_variates s) <= nv /\ Forall (fun arr => length arr = k) (tl_variates s).
Lemma list_sum_le (l : list (list V)) k : Forall (fun arr => length arr = k) l -> list_sum (map (@length V) l) = k * length l.
Proof. induction 1 as [|a l E _ IH]; [cbn; lia|]. change (length a + list_sum (map (@length V) l) = k * S (length l)). rewrite E, IH. lia. Qed.
Lemma tail_ok_elements k nv s : tail_ok k nv s -> tail_elements s <= (2 + nv) * k.
Proof. intros (I1 & I2 & I3 & I4). unfold tail_elements. rewrite (list_sum_le _ _ I4). nia. Qed.
Lemma tail_assign_ok k nv samples indices variates i x vs : length samples = k -> length indices <= k -> length variates <= nv ->
  Forall (fun arr => length arr = k) variates -> tail_ok k nv (tail_assign H pred samples indices variates i x vs).
Proof.
  intros I1 I2 I3 I4. unfold tail_assign. split; [|split; [|split]]; cbn [tl_samples tl_indices tl_variates].
  - rewrite set_nth_length. exact I1.
  - destruct HP as (P1 & _). rewrite P1. exact I2.
  - rewrite map_length, combine_length. lia.
  - apply Forall_map, Forall_forall. intros [arr v] Hin. cbn. rewrite set_nth_length. rewrite Forall_forall in I4. apply I4. exact (in_combine_l _ _ _ _ Hin).
Qed.
Lemma tail_push_ok k nv s x vs s' : tail_ok k nv s -> tail_push H pred s x vs = Ok s' -> tail_ok k nv s'.
Proof.
  intros I. pose proof I as (I1 & I2 & I3 & I4). unfold tail_push. destruct (Nat.ltb_spec (length (tl_indices s)) (length (tl_samples s))).
  - intros X; injection X as <-. apply tail_assign_ok; auto. rewrite app_length. cbn. lia.
  - destruct (tl_indices s) as [|top r] eqn:EI; try discriminate. destruct (nth_error (tl_samples s) top) as [t|]; try discriminate.
    destruct (pred x t); [|intros X; injection X as <-; exact I].
    destruct (rev (pop_heap H (indirect_cmp pred (tl_samples s)) (top :: r))); try discriminate. intros X; injection X as <-. apply tail_assign_ok; auto.
    destruct HP as (_ & P2 & _). rewrite P2. exact I2.
Qed.
Lemma tail_sort_ok k nv s : tail_ok k nv s -> tail_ok k nv (tail_sort H pred s).
Proof.
  intros I. pose proof I as (I1 & I2 & I3 & I4). unfold tail_sort. destruct (tl_sorted s); [exact I|]. split; [|split; [|split]]; cbn [tl_samples tl_indices tl_variates]; auto.
  destruct HP as (_ & _ & P3). rewrite rev_length, P3. exact I2.
Qed.
Lemma tail_init_ok k nv dA dV : tail_ok k nv (tail_init k nv dA dV).
Proof.
  split; [|split; [|split]]; cbn [tail_init tl_samples tl_indices tl_variates length]; rewrite ?repeat_length; try lia.
  apply Forall_forall. intros arr Ha. apply repeat_spec in Ha. subst arr. apply repeat_length.
Qed.
Lemma tail_run_ok k nv dA dV ops : forall s, tail_run H pred (tail_init k nv dA dV) ops = Ok s -> tail_ok k nv s.
Proof.
  unfold tail_run. induction ops as [|o ops IH] using rev_ind; intros s R.
  - injection R as <-. apply tail_init_ok.
  - rewrite fold_left_app in R. cbn [fold_left] in R. destruct (fold_left _ ops _) as [s1| |]; try discriminate R. specialize (IH s1 eq_refl).
    destruct o as [x vs|]; cbn [tail_step] in R; [exact (tail_push_ok _ _ _ _ _ _ IH R)|injection R as <-; exact (tail_sort_ok _ _ _ IH)].
Qed.
End Tail.

(** ** Whole sets *)
Section Whole.
Variable K : Num.
Variable A : Args K.
Hypothesis HP : InPlace (a_heap K A).
Variable sqrt : car K -> car K.
Local Notation B := (WholeSets K A sqrt).
Local Notation Cl := (cell K (wcell K)).

Definition markers (t : ltag) : nat :=
  match t with
  | t_p_square_quantile | t_p_square_quantile_for_median
  | t_weighted_p_square_quantile | t_weighted_p_square_quantile_for_median => 5
  | t_p_square_cumulative_distribution | t_weighted_p_square_cumulative_distribution => a_cells K A + 1
  | t_extended_p_square | t_weighted_extended_p_square => ext_markers K (a_probabilities K A)
  | _ => 0
  end.
Definition wcell_ok (t : ltag) (c : wcell K) : Prop :=
  match c with
  | WRoll (RBuf b) => t = t_rolling_window_plus1 /\ length b <= a_window K A + 1
  | WDens (Ok d) => t = t_density /\ dens_ok K (car K) (a_density_cache K A) (a_density_bins K A) d
  | WWDens (Ok d) => t = t_weighted_density /\ dens_ok K (car K * car K) (a_density_cache K A) (a_density_bins K A) d
  | WMarks (Ok m) => marks_ok K (markers t) m
  | WTail (Ok s) => (exists sd, t = t_tail sd) /\ tail_ok (car K) (pack K) (a_tail_cache K A) 1 s
  | _ => True
  end.
Definition ok (t : ltag) (c : Cl) : Prop := match c with CRest y => wcell_ok t y | _ => True end.

Lemma ok_elements t c : ok t c -> cell_elements K c <= allowance K A t.
Proof.
  unfold ok, cell_elements. destruct c as [| | | |[|[]| |[d| |]|[d| |]|[m| |]| |[s| |]| | |]]; cbn; try lia.
  - intros [-> X]. exact X.
  - intros [-> X]. rewrite (dens_ok_elements _ _ _ _ _ X). reflexivity.
  - intros [-> X]. rewrite (dens_ok_elements _ _ _ _ _ X). reflexivity.
  - intros X. apply marks_ok_elements in X. etransitivity; [exact X|]. destruct t; cbn [markers allowance]; unfold ext_markers; lia.
  - intros [(sd & ->) X]. exact (tail_ok_elements _ _ _ _ _ X).
Qed.

Lemma cb_push_le {X} cap (b : list X) x : length b <= cap -> length (cb_push cap b x) <= cap.
Proof. unfold cb_push. intros L. destruct (Nat.eqb_spec (length b) cap) as [E|E]. 2:{ rewrite app_length. cbn. lia. } destruct b as [|y b]; cbn in *; [lia|]. rewrite app_length. cbn. lia. Qed.
Lemma init_ok t : wcell_ok t (winit K A t).
Proof.
  unfold winit. destruct (rolling t) eqn:ER.
  - destruct t; try discriminate ER; cbn; auto. split; [reflexivity|lia].
  - destruct t; cbn; auto; try (split; [reflexivity|]); try apply dens_init_ok; try (repeat split; cbn; rewrite ?repeat_length, ?map_length, ?seq_length; lia).
    + apply ext_init_ok.
    + split; [eexists; reflexivity|]. apply tail_init_ok.
Qed.
Lemma wstep_ok t r p s : wcell_ok t s -> wcell_ok t (wstep K A t r p s).
Proof.
  assert (MK : forall M weighted cum des cnt W o x w, M = markers t -> (forall W p d d', des W p d = Ok d' -> length d <= M -> length d' <= M) ->
     wcell_ok t (WMarks o) -> wcell_ok t (WMarks (obnd o (fun m => psq_operate K M weighted cum des cnt W m x w)))).
  { intros M weighted cum des cnt W o x w EM HD Ho. destruct o as [m| |]; cbn [obnd]; try exact I. cbn in Ho. rewrite <- EM in Ho.
    destruct (psq_operate K M weighted cum des cnt W m x w) as [m'| |] eqn:Eop; cbn; try exact I. rewrite <- EM. exact (operate_ok K M _ _ _ _ _ _ _ _ _ HD Ho Eop). }
  destruct s as [|rc|a|o|o|o|m|o|q|q|q]; intros Hs.
  - destruct t; exact Hs.
  - assert (E : wstep K A t r p (WRoll rc) = WRoll (rstep K (a_window K A) t (fun f => roll_view K (r f)) p rc)) by (destruct t; reflexivity). rewrite E. clear E MK.
    destruct rc as [|b|n|a|a1 a2|]; [destruct t; exact I| |destruct t; exact I| | |destruct t; exact I].
    + cbn in Hs. destruct Hs as [-> Hb]. cbn. split; [reflexivity|]. unfold rwp1_op. apply cb_push_le, Hb.
    + destruct t; cbn [rstep wcell_ok]; try exact I; unfold of_num; match goal with |- context [match ?o with Some _ => _ | None => _ end] => destruct o end; exact I.
    + destruct t; cbn [rstep wcell_ok]; try exact I; unfold of_pair; match goal with |- context [match ?o with Some _ => _ | None => _ end] => destruct o end; exact I.
  - destruct t; exact I.
  - destruct o as [d| |]; [|destruct t; exact I..]. destruct Hs as [-> Hd]. cbn [wstep obnd].
    match goal with |- wcell_ok _ (WDens ?o) => destruct o as [d'| |] eqn:E; cbn; try exact I end. split; [reflexivity|]. exact (dens_operate_ok _ _ _ _ _ _ _ _ _ _ _ _ _ Hd E).
  - destruct o as [d| |]; [|destruct t; exact I..]. destruct Hs as [-> Hd]. cbn [wstep obnd].
    match goal with |- wcell_ok _ (WWDens ?o) => destruct o as [d'| |] eqn:E; cbn; try exact I end. split; [reflexivity|]. exact (dens_operate_ok _ _ _ _ _ _ _ _ _ _ _ _ _ Hd E).
  - destruct t; try exact Hs; cbn [wstep]; apply MK; try exact Hs; try reflexivity; intros; first [eapply des_inc_length; eassumption|eapply wpq_des_length; eassumption|eapply wcd_des_length; eassumption|eapply wext_des_length; eassumption].
  - destruct t; exact I.
  - destruct o as [st| |]; [|destruct t; exact I..]. destruct Hs as [(sd & ->) Hd]. cbn [wstep obnd].
    match goal with |- wcell_ok _ (WTail ?o) => destruct o as [d'| |] eqn:E; cbn; try exact I end. split; [eexists; reflexivity|]. exact (tail_push_ok _ HP _ _ _ _ _ _ _ _ _ Hd E).
  - destruct t; exact I.
  - destruct t; exact I.
  - destruct t; exact I.
Qed.
Lemma bstep_ok t r p c : ok t c -> ok t (bstep K (WholeRest K A) t r p c).
Proof.
  destruct c as [|n|a|a1 a2|y]; intros Hc.
  - destruct t; exact I.
  - destruct t; exact I.
  - destruct t; cbn [bstep ok]; try exact I; unfold of_option; match goal with |- context [match ?o with Some _ => _ | None => _ end] => destruct o end; exact I.
  - destruct t; exact I.
  - assert (E : bstep K (WholeRest K A) t r p (CRest y) = CRest (wstep K A t r p y)) by (destruct t; reflexivity). rewrite E. exact (wstep_ok t r p y Hc).
Qed.
Lemma binit_ok t : ok t (binit K (WholeRest K A) t).
Proof. unfold binit. destruct (basic t) eqn:EB; [destruct t; try exact I; discriminate EB|]. exact (init_ok t). Qed.

Definition all_ok (s : accset Library B) : Prop := Forall (fun a => ok (fst (who Library B a)) (state Library B a)) s.
Lemma visit_ok x todo : forall done, all_ok done -> all_ok todo -> all_ok (visit Library B x done todo).
Proof.
  induction todo as [|a todo IH]; intros done Hd Ht; [exact Hd|]. cbn [visit]. inversion_clear Ht as [|? ? Ha Ht']. apply IH; [|exact Ht'].
  apply Forall_app. split; [exact Hd|]. constructor; [|constructor]. unfold operate. destruct (is_dropped Library B a); [exact Ha|]. cbn [who state]. exact (bstep_ok _ _ _ _ Ha).
Qed.
Lemma same_states_ok (s s' : accset Library B) : map (who Library B) s' = map (who Library B) s -> map (state Library B) s' = map (state Library B) s -> all_ok s -> all_ok s'.
Proof.
  unfold all_ok. revert s'. induction s as [|a s IH]; intros [|a' s'] E1 E2 H; try discriminate; [constructor|]. cbn in E1, E2. injection E1 as Ew E1. injection E2 as Es E2.
  inversion_clear H. constructor; [rewrite Ew, Es; assumption|apply IH; assumption].
Qed.
Lemma history_ok es : forall s, all_ok s -> all_ok (history Library B s es).
Proof.
  induction es as [|e es IH]; intros s Hs; [exact Hs|]. cbn. apply IH. destruct e as [x|t]; cbn [handle].
  - apply visit_ok; [constructor|exact Hs].
  - destruct (drop_shape Library B s t) as [E1 E2]. exact (same_states_ok _ _ E1 E2 Hs).
Qed.
Lemma construct_ok enum W fs : all_ok (construct Library B enum W fs).
Proof. apply Forall_forall. intros a Ha. rewrite (built_state Library B enum W fs a Ha). exact (binit_ok _). Qed.

Lemma sum_le {X} (f g : X -> nat) l : Forall (fun x => f x <= g x) l -> list_sum (map f l) <= list_sum (map g l).
Proof. induction 1 as [|x l Hx _ IH]; [cbn; lia|]. change (f x + list_sum (map f l) <= g x + list_sum (map g l)). lia. Qed.
Lemma whole_memory enum W fs es :
  let s := history Library B (construct Library B enum W fs) es in
  map (who Library B) s = make_tuple Library enum W fs /\
  list_sum (map (fun a => cell_elements K (state Library B a)) s) <= list_sum (map (fun t => allowance K A (fst t)) (make_tuple Library enum W fs)).
Proof.
  cbn zeta. assert (E : map (who Library B) (history Library B (construct Library B enum W fs) es) = make_tuple Library enum W fs) by (rewrite history_who; apply construct_who).
  split; [exact E|]. rewrite <- E at 1. rewrite map_map. apply sum_le. eapply Forall_impl; [|exact (history_ok es _ (construct_ok enum W fs))]. intros a Ha. exact (ok_elements _ _ Ha).
Qed.
End Whole.

Lemma sort_by_length {A} (f : A -> A -> bool) l : length (ProofTail.sort_by f l) = length l.
Proof. symmetry. apply Permutation.Permutation_length, ProofTail.sort_by_perm. Qed.
Lemma sorting_heap_in_place : InPlace sorting_heap.
Proof. split; [|split]; intros comp l; cbn; rewrite ?sort_by_length; auto. destruct l; [reflexivity|]. rewrite app_length, sort_by_length. cbn. lia. Qed.
Lemma density_memory : forall (K : Num) (lo hi : car K) (c b : nat) (s0 : car K),
  (forall ops s, density_run K lo hi c b s0 ops = Ok s -> dens_elements K s = c + 3 * (b + 2)) /\
  (forall ops s, weighted_density_run K lo hi c b s0 ops = Ok s -> dens_elements K s = c + 3 * (b + 2)).
Proof. intros. split; intros ops s R; apply dens_run_ok in R; exact (dens_ok_elements _ _ _ _ _ R). Qed.
Lemma tail_memory : forall (H : HeapOps), InPlace H -> forall (A V : Type) (pred : A -> A -> bool) (k nv : nat) (dA : A) (dV : V) ops s,
  tail_run H pred (tail_init k nv dA dV) ops = Ok s -> tail_elements s <= (2 + nv) * k.
Proof. intros H HP A V pred k nv dA dV ops s R. apply (tail_run_ok H HP) in R. exact (tail_ok_elements _ _ _ _ _ R). Qed.
Lemma memory_example : InPlace sorting_heap /\
  (let fs := [plain t_density; plain (t_tail on_right)] in
   let stored n := list_sum (map (fun a => cell_elements QcN (state Library (WB Qcmult) a))
     (history Library (WB Qcmult) (construct Library (WB Qcmult) in_order false fs) (map (wpush Qcmult) (firstn n [3; 1; 4; 1; 5; 9]%Z)))) in
   list_sum (map (fun t => allowance QcN (ex_args Qcmult) (fst t)) (make_tuple Library in_order false fs)) = 26 /\
   map stored [0; 3; 6] = [22; 25; 26]).
Proof. split; [exact sorting_heap_in_place|]. vm_compute. split; reflexivity. Qed.
