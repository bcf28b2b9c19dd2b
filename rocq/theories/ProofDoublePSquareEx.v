(** The P-square accumulators of doubles: concrete cases. *)
From Coq Require Import ZArith List Bool Reals Lra Lia.
From Flocq Require Import Core IEEE754.BinarySingleNaN.
From Verif Require Import Num ModelPSquare ModelDouble SpecDouble ProofDouble ProofDoubleEx.
Import ListNotations.
Local Open Scope R_scope.

Definition eighths : list double := map (fun z => dbl z (-3)) [3; 1; 4; 1; 5; 9; 2; 6; 5]%Z.
Definition quarter := dbl 1 (-2).
Definition three_quarters := dbl 3 (-2).
Definition shown_pair (c : double * double) := (shown_double (fst c), shown_double (snd c)).

Lemma eighths_ok : Countable eighths /\ Within (2 ^ 1000) eighths.
Proof.
  split; [unfold Countable; cbn; lia |]. apply Forall_forall. intros x Hx. rewrite pow_bpow.
  assert (Q : exists m e, shown_double x = Some (m, e) /\ (Z.abs m < 2 ^ 53)%Z /\ (-60 <= e <= 0)%Z).
  { unfold eighths in Hx. cbn [map In] in Hx. repeat (destruct Hx as [<- | Hx]; [eexists _, _; split; [vm_compute; reflexivity |]; lia |]). destruct Hx. }
  destruct Q as (m & e & E & Bm & Be). destruct (shown_value x m e E) as [F V]. split; [exact F |]. rewrite V, Rabs_mult, (Rabs_pos_eq (bpow _ _)) by apply bpow_ge_0.
  replace (Z.of_nat 1000) with (1000 - e + e)%Z by lia. rewrite bpow_plus. apply Rmult_le_compat_r; [apply bpow_ge_0 |].
  rewrite <- abs_IZR. apply Rle_trans with (bpow radix2 53); [rewrite <- IZR_Zpower by lia; apply IZR_le; change (Zpower radix2 53) with (2 ^ 53)%Z; lia | apply bpow_le; lia].
Qed.
Lemma unit_shown x m e : shown_double x = Some (m, e) -> (0 <= m <= 2 ^ 53)%Z -> (-60 <= e <= -53)%Z -> finite x /\ 0 <= val x <= 1.
Proof.
  intros E Bm Be. destruct (shown_value x m e E) as [F V]. split; [exact F |]. rewrite V. assert (P := bpow_ge_0 radix2 e).
  assert (0 <= IZR m) by (apply IZR_le; lia). split; [apply Rmult_le_pos; lra |].
  apply Rle_trans with (bpow radix2 53 * bpow radix2 e).
  - apply Rmult_le_compat_r; [exact P |]. rewrite <- IZR_Zpower by lia. apply IZR_le. change (Zpower radix2 53) with (2 ^ 53)%Z. lia.
  - rewrite <- bpow_plus. change 1 with (bpow radix2 0). apply bpow_le. lia.
Qed.
Lemma probs_ok : Forall (fun p => finite p /\ 0 <= val p <= 1) [quarter; half DoubleN; three_quarters].
Proof.
  apply Forall_cons; [| apply Forall_cons; [| apply Forall_cons; [| constructor]]].
  - apply (unit_shown quarter 4503599627370496 (-54)); [vm_compute; reflexivity | lia | lia].
  - apply (unit_shown (half DoubleN) 4503599627370496 (-53)); [vm_compute; reflexivity | lia | lia].
  - apply (unit_shown three_quarters 6755399441055744 (-53)); [vm_compute; reflexivity | lia | lia].
Qed.
Lemma pq_shown : match pq_run DoubleN (half DoubleN) eighths with
  | Ok s => match pq_result DoubleN s with Ok r => shown_double r | _ => None end | _ => None end = Some (4566149622195086, -53)%Z.
Proof. vm_compute. reflexivity. Qed.
Lemma cd_shown : match cd_run DoubleN 3 eighths with Ok s => map shown_pair (cd_pairs DoubleN s) | _ => [] end
  = [(Some (4503599627370496, -55), Some (8006399337547548, -56)); (Some (7505999378950826, -55), Some (6004799503160661, -54));
     (Some (7130699410003285, -53), Some (6004799503160661, -53)); (Some (5066549580791808, -52), Some (4503599627370496, -52))]%Z.
Proof. vm_compute. reflexivity. Qed.
Lemma ext_shown : match ext_run DoubleN [quarter; three_quarters] eighths with
  | Ok s => match ext_result DoubleN [quarter; three_quarters] s with Ok l => map shown_double l | _ => [] end | _ => [] end
  = [Some (4503599627370496, -54); Some (5566949539388530, -53)]%Z.
Proof. vm_compute. reflexivity. Qed.

(** Overflow: five of the seven samples are the lowest double. *)
Definition extreme : list double := let lo := d_opp d_max in [lo; lo; lo; d_max; d_max; lo; lo].
Lemma pq_overflow : Forall finite extreme /\ exists s, pq_run DoubleN (half DoubleN) extreme = Ok s /\ pq_result DoubleN s = Ok d_inf.
Proof.
  split; [repeat constructor |].
  assert (Q : match pq_run DoubleN (half DoubleN) extreme with
    | Ok s => match pq_result DoubleN s with Ok (B754_infinity false) => true | _ => false end | _ => false end = true) by (vm_compute; reflexivity).
  destruct (pq_run DoubleN (half DoubleN) extreme) as [s | |]; try discriminate Q. exists s. split; [reflexivity |].
  destruct (pq_result DoubleN s) as [[| [] | |] | |]; try discriminate Q. reflexivity.
Qed.
