(** Proofs about the serialization of the circular buffer. *)
From Coq Require Import List Arith Bool Lia.
From Verif Require Import Num ModelRolling SpecMachine ModelCircular ProofMachines.
Import ListNotations.

Section Circular.
Variable T : Type.
Variable N : nat.
Local Notation M := (RingMachine T N).

Lemma one_two : forall b : cbuf T, array_one b ++ array_two b = cb_items b.
Proof. intros b; apply firstn_skipn. Qed.
Lemma get_bytes_put : forall xs r, get_bytes T (length xs) (map (TByte T) xs ++ r) = Some (xs, r).
Proof. induction xs as [| x xs IH]; intros r; cbn; [reflexivity | now rewrite IH]. Qed.

(** Loading gives the contents back whatever the layout was. *)
Lemma ring_bytes : forall b b0 : cbuf T, exists f,
  ring_load T (byte_stream T) b0 (ring_save T (byte_stream T) b) = Some {| cb_cap := cb_cap b; cb_first := f; cb_items := cb_items b |}.
Proof.
  intros b b0; cbn; rewrite <- map_app, one_two, <- (app_nil_r (map _ _)), get_bytes_put; eauto.
Qed.

Lemma same_contents : forall (cs : list (mcall M)) (s t : MState M) q,
  cb_cap s = cb_cap t -> cb_items s = cb_items t -> answer (mrun s cs) q = answer (mrun t cs) q.
Proof.
  intros cs s t q E1 E2; apply (answers_agree M (fun s t => cb_cap s = cb_cap t /\ cb_items s = cb_items t)).
  - intros s0 t0 x [R1 R2]; cbn; now rewrite R1, R2.
  - intros s0 t0 q0 [R1 R2]; cbn; now rewrite R1, R2.
  - now split.
Qed.

Theorem ring_roundtrip : RoundTrip M (ring_save T (byte_stream T)) (ring_load T (byte_stream T)) anything.
Proof.
  intros cs s _ _; destruct (ring_bytes s (mstart M)) as (f & E).
  eexists; split; [exact E |]; intros cs' q; now apply same_contents.
Qed.

(** As long as nothing has been overwritten the ring is not wrapped. *)
Lemma unwrapped : forall (cs : list (mcall M)) (s : MState M), (length (inputs cs) <= N + 1)%nat -> mrun (mstart M) cs = Ok s ->
  cb_cap s = (N + 1)%nat /\ cb_first s = 0%nat /\ cb_items s = inputs cs.
Proof.
  induction cs as [| c cs IH] using rev_ind; intros s Hn E.
  - injection E as <-; auto.
  - rewrite mrun_snoc in E; destruct (mrun (mstart M) cs) as [s1 | |]; try discriminate E.
    rewrite inputs_snoc in *; destruct c as [x | q]; cbn in E; injection E as <-.
    + rewrite app_length in Hn; cbn [length] in Hn; change (@length (MIn M)) with (@length T) in Hn; destruct (IH s1) as (I1 & I2 & I3); [change (@length (MIn M)) with (@length T); lia | reflexivity |].
      assert (X : Nat.eqb (length (cb_items s1)) (cb_cap s1) = false) by (rewrite I1, I3; apply Nat.eqb_neq; lia).
      unfold ring_push; cbn [cb_cap cb_first cb_items]; unfold cb_push; rewrite X; repeat split; auto; now rewrite I3.
    + rewrite app_nil_r in *; now apply IH.
Qed.
Theorem ring_blocks_roundtrip : RoundTrip M (ring_save T (blocks T)) (ring_load T (blocks T)) (fun xs => (length xs <= N + 1)%nat).
Proof.
  intros cs s Hn E; destruct (unwrapped cs s Hn E) as (I1 & I2 & I3).
  exists s; split; [| reflexivity]; destruct s as [cap f items]; cbn in *; subst cap f items.
  unfold array_one, array_two; cbn [cb_cap cb_first cb_items].
  replace (N + 1 - 0)%nat with (N + 1)%nat by lia.
  rewrite firstn_all2, skipn_all2 by exact Hn; rewrite app_nil_r, Nat.eqb_refl.
  set (xs := @inputs M cs) in *; clearbody xs; cbn; destruct xs as [| x xs]; cbn; [reflexivity |].
  now rewrite Nat.eqb_refl.
Qed.
End Circular.

(** Three samples in a window of one: the ring is wrapped and the archive cannot be read. *)
Theorem ring_blocks_not_roundtrip : ~ RoundTrip (RingMachine nat 1) (ring_save nat (blocks nat)) (ring_load nat (blocks nat)) anything.
Proof.
  intros H; destruct (H [@Feed (RingMachine nat 1) 1%nat; @Feed (RingMachine nat 1) 2%nat; @Feed (RingMachine nat 1) 3%nat]
                       _ I eq_refl) as (s' & E & _).
  discriminate E.
Qed.
