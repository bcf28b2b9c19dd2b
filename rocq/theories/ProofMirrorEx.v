(** Examples for C84. *)
From Coq Require Import List Bool ZArith Lia Reals.
From Flocq Require Import Core IEEE754.BinarySingleNaN.
From Verif Require Import Num ModelBasic ModelRolling ModelTail ModelHeap ModelDouble SpecDouble SpecMirror ProofDouble5 ProofDoubleEx ProofMirror ProofMirror4.
Import ListNotations.

Definition here : list double := [dbl 1 0; dbl 1 60; dbl (-3) 40; d_zero; dbl 7 (-3)].
Definition there : list double := map d_opp here.
Definition zeroed : list double := [dbl 1 0; dbl 1 60; dbl (-3) 40; d_opp d_zero; dbl 7 (-3)].
Lemma mirrored_map xs : TurnedAll true xs (map d_opp xs).
Proof. induction xs; constructor; [now left | assumption]. Qed.
Lemma mirror_case : TurnedAll true here there /\ TurnedAll false here zeroed /\ shown_double (immediate_mean here) = Some (7205738787949773, 5)%Z /\
  shown_double (immediate_mean there) = Some (-7205738787949773, 5)%Z.
Proof.
  split; [apply mirrored_map |]. split; [| split; vm_compute; reflexivity].
  unfold TurnedAll, here, zeroed. do 3 (apply Forall2_cons; [left; reflexivity |]). apply Forall2_cons; [right; repeat split |]. apply Forall2_cons; [left; reflexivity | apply Forall2_nil].
Qed.
Lemma opt_case {A : Type} (o p : option A) (c : A -> A -> bool) : match o, p with Some a, Some b => c a b | _, _ => false end = true -> exists a b, o = Some a /\ p = Some b /\ c a b = true.
Proof. destruct o as [a|], p as [b|]; try discriminate. intros H. exists a, b. auto. Qed.
Lemma moment_case : exists a b, moment_run DoubleN 3 d_zero here = Some a /\ moment_run DoubleN 3 d_zero there = Some b /\ d_lt d_zero a = true /\ d_lt b d_zero = true.
Proof.
  destruct (opt_case (moment_run DoubleN 3 d_zero here) (moment_run DoubleN 3 d_zero there) (fun a b => d_lt d_zero a && d_lt b d_zero)) as (a & b & E1 & E2 & E3); [vm_compute; reflexivity |].
  apply andb_true_iff in E3 as [E3 E4]. exists a, b. auto.
Qed.
Lemma shape_case : exists a b, skewness_run DoubleN d_sqrt d_zero [dbl 1 0; dbl 2 0; dbl 5 0] = Some a /\ skewness_run DoubleN d_sqrt d_zero [dbl (-1) 0; dbl (-2) 0; dbl (-5) 0] = Some b /\
  d_lt d_zero a = true /\ d_lt b d_zero = true.
Proof.
  destruct (opt_case (skewness_run DoubleN d_sqrt d_zero [dbl 1 0; dbl 2 0; dbl 5 0]) (skewness_run DoubleN d_sqrt d_zero [dbl (-1) 0; dbl (-2) 0; dbl (-5) 0]) (fun a b => d_lt d_zero a && d_lt b d_zero)) as (a & b & E1 & E2 & E3); [vm_compute; reflexivity |].
  apply andb_true_iff in E3 as [E3 E4]. exists a, b. auto.
Qed.
Lemma dbl_opp1 : dbl (-1) 0 = d_opp (dbl 1 0). Proof. apply B2SF_inj. vm_compute. reflexivity. Qed.
Lemma dbl_opp2 : dbl (-2) 0 = d_opp (dbl 2 0). Proof. apply B2SF_inj. vm_compute. reflexivity. Qed.
Lemma dbl_opp3 : dbl (-3) 0 = d_opp (dbl 3 0). Proof. apply B2SF_inj. vm_compute. reflexivity. Qed.
Lemma dbl_opp5 : dbl (-5) 0 = d_opp (dbl 5 0). Proof. apply B2SF_inj. vm_compute. reflexivity. Qed.
Lemma weighted_case : TurnedWeighted true [(dbl 1 0, dbl 1 (-1)); (dbl 5 0, dbl 3 0)] [(dbl (-1) 0, dbl 1 (-1)); (dbl (-5) 0, dbl 3 0)] /\
  d_lt (wmean_set_mean DoubleN (wmean_set_run DoubleN d_zero d_zero [(dbl (-1) 0, dbl 1 (-1)); (dbl (-5) 0, dbl 3 0)])) d_zero = true.
Proof. split; [| vm_compute; reflexivity]. unfold TurnedWeighted. apply Forall2_cons; [split; [left; exact dbl_opp1 | reflexivity] |]. apply Forall2_cons; [split; [left; exact dbl_opp5 | reflexivity] | apply Forall2_nil]. Qed.
Lemma covariance_case : TurnedPairs true false [(dbl 1 0, dbl 2 0); (dbl 3 0, dbl 7 0)] [(dbl (-1) 0, dbl 2 0); (dbl (-3) 0, dbl 7 0)] /\
  d_lt (cs_cov DoubleN (cov_set_run DoubleN d_zero d_zero [(dbl (-1) 0, dbl 2 0); (dbl (-3) 0, dbl 7 0)])) d_zero = true.
Proof. split; [| vm_compute; reflexivity]. unfold TurnedPairs. apply Forall2_cons; [split; [left; exact dbl_opp1 | left; reflexivity] |]. apply Forall2_cons; [split; [left; exact dbl_opp3 | left; reflexivity] | apply Forall2_nil]. Qed.
Lemma rolling_case : exists s t, rolling 2 3 here s /\ rolling 2 3 there t.
Proof.
  unfold rolling. destruct (opt_case (roll_run DoubleN 2 3 d_zero here) (roll_run DoubleN 2 3 d_zero there) (fun _ _ => true)) as (a & b & E1 & E2 & _); [vm_compute; reflexivity |]. eauto.
Qed.
Definition tops : list (tail_op double unit) := [TPush (dbl 3 0) [tt]; TPush (dbl 1 0) [tt]; TExtract; TPush (dbl 2 0) [tt]].
Lemma tail_case : TurnedOps true [TPush (dbl 3 0) [tt]; TPush (dbl 1 0) [tt]; TExtract; TPush (dbl 2 0) [tt]] [TPush (dbl (-3) 0) [tt]; TPush (dbl (-1) 0) [tt]; TExtract; TPush (dbl (-2) 0) [tt]] /\
  exists s, tail_run binary_heap (tail_pred DoubleN Left) (tail_init 2 1 d_zero tt) [TPush (dbl 3 0) [tt]; TPush (dbl 1 0) [tt]; TExtract; TPush (dbl 2 0) [tt]] = Ok s /\
    exists l, tail_result binary_heap (tail_pred DoubleN Left) s = Ok l /\ length l = 2%nat.
Proof.
  split.
  { unfold TurnedOps. apply Forall2_cons; [split; [left; exact dbl_opp3 | reflexivity] |]. apply Forall2_cons; [split; [left; exact dbl_opp1 | reflexivity] |].
    apply Forall2_cons; [exact I |]. apply Forall2_cons; [split; [left; exact dbl_opp2 | reflexivity] | apply Forall2_nil]. }
  assert (H : match tail_run binary_heap (tail_pred DoubleN Left) (tail_init 2 1 d_zero tt) tops with
    Ok s => match tail_result binary_heap (tail_pred DoubleN Left) s with Ok l => Nat.eqb (length l) 2 | _ => false end | _ => false end = true) by (vm_compute; reflexivity).
  fold tops. match type of H with match ?r with _ => _ end = _ => change (exists s, r = Ok s /\ exists l, tail_result binary_heap (tail_pred DoubleN Left) s = Ok l /\ length l = 2%nat); destruct r as [s| |]; try discriminate end.
  exists s. split; [reflexivity |].
  match type of H with match ?r with _ => _ end = _ => change (exists l, r = Ok l /\ length l = 2%nat); destruct r as [l| |]; try discriminate end.
  exists l. split; [reflexivity |]. now apply Nat.eqb_eq.
Qed.
