(** Histograms of doubles: examples. *)
From Coq Require Import ZArith List Bool Reals Lra Lia.
From Flocq Require Import Core IEEE754.BinarySingleNaN.
From Verif Require Import Num ModelDensity ModelDouble SpecDensity SpecDouble ProofDoubleEx ProofDoubleTail.
Import ListNotations.

(** The fractions of a histogram of doubles, one per bin. *)
Definition fractions (c b : nat) (xs : list double) : outcome (list (option (Z * Z))) :=
  match density_run DoubleN (d_opp d_max) d_max c b d_zero (map DPush xs) with
  | Ok s => Ok (map (fun pf => shown_double (snd pf)) (density_result DoubleN s))
  | NotANumber => NotANumber
  | UB => UB
  end.
Definition nought : option (Z * Z) := Some (0, 0)%Z.
Definition a_half : option (Z * Z) := Some (4503599627370496, -53)%Z.
Definition the_whole : option (Z * Z) := Some (4503599627370496, -52)%Z.

Definition below_tenth : double := dbl 7205759403792793 (-56).
Lemma last_bin : fractions 2 11 [d_zero; tenth] = Ok ([nought; a_half] ++ repeat nought 9 ++ [a_half; nought]).
Proof. vm_compute. reflexivity. Qed.
Lemma early_overflow : fractions 2 19 [d_zero; tenth; below_tenth; d_zero] = Ok ([nought; a_half] ++ repeat nought 18 ++ [a_half])
  /\ d_lt below_tenth tenth = true.
Proof. split; vm_compute; reflexivity. Qed.
Lemma wide_spread : fractions 2 4 [d_opp d_max; d_max; d_zero; dbl 1 1000; dbl (-1) 1000] = Ok [nought; the_whole; nought; nought; nought; nought].
Proof. vm_compute. reflexivity. Qed.

Definition five : list double := [d_zero; dbl 4 0; dbl 1 0; dbl (-3) 0; tenth].
Lemma five_ok : Countable five /\ Within (2 ^ 960) five /\
  fractions 2 2 five = Ok [Some (7205759403792794, -55); Some (5404319552844595, -53); nought; Some (7205759403792794, -55)]%Z.
Proof.
  split; [unfold Countable; cbn; lia|]. split; [|vm_compute; reflexivity].
  assert (P : forall x, finite x /\ (Rabs (val x) <= bpow radix2 28)%R -> finite x /\ (Rabs (val x) <= 2 ^ 960)%R).
  { intros x [F B]. split; [exact F|]. eapply Rle_trans; [exact B|]. rewrite pow_bpow. apply bpow_le. lia. }
  repeat apply Forall_cons; [apply P..|apply Forall_nil].
  - split; [reflexivity|]. cbn. rewrite Rabs_R0. lra.
  - apply (shown_bound (dbl 4 0) 4503599627370496 (-50) 78); vm_compute; reflexivity || discriminate.
  - apply (shown_bound (dbl 1 0) 4503599627370496 (-52) 80); vm_compute; reflexivity || discriminate.
  - apply (shown_bound (dbl (-3) 0) (-6755399441055744) (-51) 79); vm_compute; reflexivity || discriminate.
  - apply (shown_bound tenth 7205759403792794 (-56) 84); vm_compute; reflexivity || discriminate.
Qed.
