(** Samples with weights of both signs for the weighted P-square estimators of doubles. *)
From Coq Require Import ZArith List Reals Lia Lra.
From Flocq Require Import Core IEEE754.BinarySingleNaN.
From Verif Require Import Num ModelPSquare ModelDouble SpecDouble SpecDoubleVariance ProofDouble ProofDoubleEx ProofDoublePSquareEx.
Import ListNotations.
Local Open Scope R_scope.
(** The eighths again, with weights from -1/2 to 4. *)
Definition weighed : list (double * double) := combine eighths (map (fun z => dbl z (-1)) [2; 8; 1; -1; 4; 3; 0; 5; 2]%Z).
Lemma weighed_ok : Few weighed /\ Within (2 ^ 1000) (map fst weighed) /\ Within (2 ^ 900) (map snd weighed).
Proof.
  split; [unfold Few; cbn; lia |]. split; [exact (proj2 eighths_ok) |]. apply Forall_forall. intros x Hx. rewrite pow_bpow.
  assert (Q : exists m e, shown_double x = Some (m, e) /\ (Z.abs m < 2 ^ 53)%Z /\ (-60 <= e <= 0)%Z).
  { unfold weighed in Hx. cbn [map combine snd In eighths] in Hx. repeat (destruct Hx as [<- | Hx]; [eexists _, _; split; [vm_compute; reflexivity |]; lia |]). destruct Hx. }
  destruct Q as (m & e & E & Bm & Be). destruct (shown_value x m e E) as [F V]. split; [exact F |]. rewrite V, Rabs_mult, (Rabs_pos_eq (bpow _ _)) by apply bpow_ge_0.
  replace (Z.of_nat 900) with (900 - e + e)%Z by lia. rewrite bpow_plus. apply Rmult_le_compat_r; [apply bpow_ge_0 |].
  rewrite <- abs_IZR. apply Rle_trans with (bpow radix2 53); [rewrite <- IZR_Zpower by lia; apply IZR_le; change (Zpower radix2 53) with (2 ^ 53)%Z; lia | apply bpow_le; lia].
Qed.
Lemma wpq_shown : match wpq_run DoubleN (half DoubleN) weighed with
  | Ok s => match pq_result DoubleN s with Ok r => shown_double r | _ => None end | _ => None end = Some (7963329198254044, -53)%Z.
Proof. vm_compute. reflexivity. Qed.
Lemma wcd_shown : match wcd_run DoubleN 3 weighed with Ok s => map (fun c => shown_double (fst c)) (wcd_pairs DoubleN s) | _ => [] end
  = [Some (4503599627370496, -55); Some (4503599627370496, -55); Some (6380099472108202, -53); Some (5066549580791808, -52)]%Z.
Proof. vm_compute. reflexivity. Qed.
Lemma wext_shown : match wext_run DoubleN [quarter; three_quarters] weighed with
  | Ok s => match ext_result DoubleN [quarter; three_quarters] s with Ok l => map shown_double l | _ => [] end | _ => [] end
  = [Some (4503599627370496, -54); Some (5902932368732043, -53)]%Z.
Proof. vm_compute. reflexivity. Qed.
