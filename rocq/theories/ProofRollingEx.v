(** Concrete rolling-window runs. *)
From Coq Require Import List Arith QArith Qcanon.
From Verif Require Import Num NumFacts ModelRolling SpecStats SpecRolling ProofRolling.
Import ListNotations.

Definition ex_roll : list Qc := [Q2Qc 1; Q2Qc 2; Q2Qc 4; Q2Qc (-3#2)].
Definition roll_get N M s0 xs : roll QcN :=
  match roll_run QcN N M s0 xs with Some s => s | None => roll_init QcN s0 end.
Lemma roll_get_ok N M s0 xs : (1 <= M)%nat -> roll_run QcN N M s0 xs = Some (roll_get N M s0 xs).
Proof.
  intros HM. unfold roll_get. destruct (roll_total QcN QcN_ordered N M s0 xs HM) as [s E].
  rewrite E. reflexivity.
Qed.
Lemma ex_window : exists s, roll_run QcN 2 3 0 ex_roll = Some s /\ ro_window QcN 2 s = [Q2Qc 4; Q2Qc (-3#2)].
Proof.
  exists (roll_get 2 3 0 ex_roll). split; [apply roll_get_ok; auto|].
  assert (E : map this (ro_window QcN 2 (roll_get 2 3 0 ex_roll)) = [4; -3#2]%Q) by (vm_compute; reflexivity).
  destruct (ro_window QcN 2 (roll_get 2 3 0 ex_roll)) as [|a [|b [|c t]]]; try discriminate.
  injection E as Ea Eb. f_equal; [|f_equal]; apply Qc_is_canon; rewrite ?Ea, ?Eb; reflexivity.
Qed.
Lemma ex_mean : exists s, roll_run QcN 2 3 0 ex_roll = Some s /\
  ro_mean QcN s = Q2Qc (5#4) /\ ro_moment QcN 2 s = Q2Qc (485#16).
Proof. exists (roll_get 2 3 0 ex_roll). split; [apply roll_get_ok; auto|]. split; apply Qc_is_canon; vm_compute; reflexivity. Qed.
Lemma ex_variance : exists s, roll_run QcN 2 3 0 ex_roll = Some s /\ ro_variance QcN 2 s = Q2Qc (121#8).
Proof. exists (roll_get 2 3 0 ex_roll). split; [apply roll_get_ok; auto|]. apply Qc_is_canon; vm_compute; reflexivity. Qed.
Lemma ex_wrapped : let b := fold_left cbuf_push [1; 2; 3; 4; 5]%nat (cbuf_new (2 + 1)) in
  cb_first b = 2%nat /\ cb_cells b = [Some 4; Some 5; Some 3]%nat /\ cbuf_contents b = [Some 3; Some 4; Some 5]%nat.
Proof. vm_compute. auto. Qed.
Lemma ex_roll_biased : exists (s0 : Qc) (xs : list Qc) (s : roll QcN), xs <> [] /\
  roll_run QcN 2 2 s0 xs = Some s /\
  ro_sum QcN s <> total QcN (fun x => x) (LastN 2 xs) /\
  ro_lazy_mean QcN 2 s <> Mean QcN (LastN 2 xs) /\
  ro_moment QcN 2 s <> Moment QcN 2 (LastN 2 xs) /\
  ro_variance QcN 2 s <> SampleVariance QcN (LastN 2 xs).
Proof.
  exists (Q2Qc 10), ex_roll, (roll_get 2 2 (Q2Qc 10) ex_roll).
  split; [discriminate|]. split; [apply roll_get_ok; auto|].
  repeat split; vm_compute; discriminate.
Qed.
