(** What weighted covariances of doubles should be.  A history is a list of (sample, variate, weight). *)
From Coq Require Import List Reals.
From Verif Require Import Num SpecStats ModelDouble SpecDouble.
Import ListNotations.
Local Open Scope R_scope.

(** The weighted covariance of the real numbers the doubles stand for. *)
Definition ExactWeightedCovariance (h : list (double * double * double)) : R :=
  WCovariance RN (map (fun p => (val (fst (fst p)), val (snd (fst p)), val (snd p))) h).

(** The samples, or the variates, with their weights. *)
Definition weighted_samples (h : list (double * double * double)) : list (double * double) := map (fun p => (fst (fst p), snd p)) h.
Definition weighted_variates (h : list (double * double * double)) : list (double * double) := map (fun p => (snd (fst p), snd p)) h.
