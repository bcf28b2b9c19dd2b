(** Weighted histograms of doubles: examples. *)
From Coq Require Import ZArith List Bool Reals Lra Lia.
From Verif Require Import Num ModelDensity ModelDouble SpecDensity SpecDouble SpecDoubleVariance SpecDoubleWeighted ProofDoubleEx ProofDoubleDensityEx ProofDoubleWTail.
Import ListNotations.

(** The fractions of a weighted histogram of doubles, one per bin. *)
Definition wfractions (c b : nat) (h : list (double * double)) : outcome (list (option (Z * Z))) :=
  match weighted_density_run DoubleN (d_opp d_max) d_max c b d_zero (map DPush h) with
  | Ok s => Ok (map (fun pf => shown_double (snd pf)) (weighted_density_result DoubleN s))
  | NotANumber => NotANumber
  | UB => UB
  end.
Lemma weighted_six : dens_pushes (map DPush six) = six /\ (3 <= length six)%nat /\ Few six /\ Within (2 ^ 960) (map fst six) /\ Moderate 1 /\ Weights 1 six /\ (/ 2 ^ 450 <= ExactWeight six)%R /\
  wfractions 3 2 six = Ok [nought; Some (6004799503160661, -55); Some (6004799503160661, -55); Some (6004799503160661, -53)]%Z.
Proof.
  destruct six_ok as (H1 & H2 & _ & H3 & H4 & H5 & _). split; [reflexivity|]. split; [cbn; lia|]. split; [exact H1|]. split.
  { revert H3. apply Forall_impl. intros x [F B]. split; [exact F|]. eapply Rle_trans; [exact B|]. apply Rle_trans with (2 ^ 3)%R; [lra | apply Rle_pow; [lra | lia]]. }
  split; [exact H2|]. split; [exact H4|]. split; [exact H5|]. vm_compute. reflexivity.
Qed.

(** A heavy sample, then light ones that vanish in the total weight but not in their bin. *)
Definition light : list (double * double) := (dbl 0 0, dbl 1 54) :: repeat (dbl 1 0, dbl 1 0) 5.
Lemma light_fractions : wfractions 2 1 light = Ok [nought; the_whole; Some (5629499534213120, -104)%Z].
Proof. vm_compute. reflexivity. Qed.
