(** Property theorems C14-C17 and the rolling part of C48. *)
From Coq Require Import List Arith QArith Qcanon.
From Verif Require Import Num NumFacts ModelRolling SpecStats SpecRolling ProofRolling ProofRollingBuf ProofRollingEx.
Import ListNotations.

(** Pushing never fails (no read of the front of an empty buffer). *)
Theorem C14_defined : forall (K : Num), OrderedLaws K -> forall (N M : nat) (s0 : car K) (xs : list (car K)),
  (1 <= M)%nat -> exists s, roll_run K N M s0 xs = Some s.
Proof. exact roll_total. Qed.
Print Assumptions C14_defined.

(** ** C14: contents and count of the window, for every N (0 included) *)
Theorem C14_window : forall (K : Num), OrderedLaws K ->
  forall (N M : nat) (s0 : car K) (xs : list (car K)) (s : roll K),
  (1 <= M)%nat -> roll_run K N M s0 xs = Some s ->
  ro_window K N s = LastN N xs /\ ro_count K N s = Nat.min (length xs) N.
Proof. exact roll_window_spec. Qed.
Print Assumptions C14_window.
Example C14_ex : exists s, roll_run QcN 2 3 0 ex_roll = Some s /\ ro_window QcN 2 s = [Q2Qc 4; Q2Qc (-3#2)].
Proof. exact ex_window. Qed.

(** ** C15 *)
Theorem C15_sum : forall (K : Num), OrderedLaws K ->
  forall (N M : nat) (s0 : car K) (xs : list (car K)) (s : roll K),
  (1 <= M)%nat -> roll_run K N M s0 xs = Some s ->
  ro_sum K s = add K s0 (total K (fun x => x) (LastN N xs)).
Proof. exact roll_sum_spec. Qed.
Print Assumptions C15_sum.
Theorem C15_means_moment : forall (K : Num), OrderedLaws K ->
  forall (N M : nat) (xs : list (car K)) (s : roll K),
  (1 <= M)%nat -> (1 <= N)%nat -> xs <> [] -> roll_run K N M (zero K) xs = Some s ->
  ro_lazy_mean K N s = Mean K (LastN N xs) /\ ro_mean K s = Mean K (LastN N xs)
  /\ ro_moment K N s = Moment K M (LastN N xs).
Proof. exact roll_means_spec. Qed.
Print Assumptions C15_means_moment.
Example C15_ex : exists s, roll_run QcN 2 3 0 ex_roll = Some s /\
  ro_mean QcN s = Q2Qc (5#4) /\ ro_moment QcN 2 s = Q2Qc (485#16).
Proof. exact ex_mean. Qed.

(** ** C16 *)
Theorem C16_variance : forall (K : Num), OrderedLaws K ->
  forall (N M : nat) (xs : list (car K)) (s : roll K),
  (1 <= M)%nat -> roll_run K N M (zero K) xs = Some s ->
  let k := Nat.min (length xs) N in
  let v := if Nat.ltb k 2 then zero K else SampleVariance K (LastN N xs) in
  ro_variance K N s = v /\ ro_lazy_variance K N s = v /\ ro_lazy_variance_lazy_mean K N s = v.
Proof. exact roll_variance_spec. Qed.
Print Assumptions C16_variance.
Example C16_ex : exists s, roll_run QcN 2 3 0 ex_roll = Some s /\ ro_variance QcN 2 s = Q2Qc (121#8).
Proof. exact ex_variance. Qed.

(** The ordered fields these theorems are about include the rationals and the reals. *)
Theorem C16_rationals : OrderedLaws QcN.
Proof. exact QcN_ordered. Qed.
Print Assumptions C16_rationals.
Theorem C16_reals : OrderedLaws RN.
Proof. exact RN_ordered. Qed.
Print Assumptions C16_reals.

(** ** C17: save, load, continue *)
Theorem C17_save_load : forall (A : Type) (N : nat) (xs : list A),
  exists b', cbuf_load (cbuf_save (fold_left cbuf_push xs (cbuf_new (N + 1)))) = Some b' /\
    forall ys, let c := fold_left cbuf_push ys (fold_left cbuf_push xs (cbuf_new (N + 1))) in
               let c' := fold_left cbuf_push ys b' in
      cbuf_contents c' = map Some (LastN (N + 1) (xs ++ ys)) /\
      cbuf_contents c = map Some (LastN (N + 1) (xs ++ ys)) /\
      cb_size c' = cb_size c /\ cb_cap c' = cb_cap c /\
      cbuf_save c' = cbuf_save c.
Proof. exact @save_load_spec. Qed.
Print Assumptions C17_save_load.
(** a wrapped buffer: the physical cells differ from the contents *)
Example C17_ex : let b := fold_left cbuf_push [1; 2; 3; 4; 5]%nat (cbuf_new (2 + 1)) in
  cb_first b = 2%nat /\ cb_cells b = [Some 4; Some 5; Some 3]%nat /\ cbuf_contents b = [Some 3; Some 4; Some 5]%nat.
Proof. exact ex_wrapped. Qed.

(** ** C48: rolling sums keep the initial sample for ever, the immediate mean does not *)
Theorem C48_rolling_mean_unbiased : forall (K : Num), OrderedLaws K ->
  forall (N M : nat) (s0 : car K) (xs : list (car K)) (s : roll K),
  (1 <= M)%nat -> (1 <= N)%nat -> xs <> [] -> roll_run K N M s0 xs = Some s ->
  ro_mean K s = Mean K (LastN N xs).
Proof. exact roll_mean_unbiased. Qed.
Print Assumptions C48_rolling_mean_unbiased.
Theorem C48_rolling_refuted : exists (s0 : Qc) (xs : list Qc) (s : roll QcN), xs <> [] /\
  roll_run QcN 2 2 s0 xs = Some s /\
  ro_sum QcN s <> total QcN (fun x => x) (LastN 2 xs) /\
  ro_lazy_mean QcN 2 s <> Mean QcN (LastN 2 xs) /\
  ro_moment QcN 2 s <> Moment QcN 2 (LastN 2 xs) /\
  ro_variance QcN 2 s <> SampleVariance QcN (LastN 2 xs).
Proof. exact ex_roll_biased. Qed.
Print Assumptions C48_rolling_refuted.
