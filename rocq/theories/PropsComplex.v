(** Property theorems C74 (complex samples). *)
From Coq Require Import List Arith ZArith QArith Qcanon.
From Verif Require Import Num NumFacts SpecStats SpecComplex ModelBasic ModelRolling ModelNumeric ModelComplex
  ProofBasic ProofBasic2 ProofComplex ProofComplexEx.
Import ListNotations.
Open Scope nat_scope.

(** ** C74: in every arithmetic, doubles included, the sums and means of complex samples are those of the real parts and
    of the imaginary parts. *)
Theorem C74_parts : forall (K : Num) (s0 : car K * car K) (xs : list (car K * car K)),
  csum_run K s0 xs = (sum_run K (fst s0) (real_parts xs), sum_run K (snd s0) (imaginary_parts xs))
  /\ fst (ckahan_run K s0 xs)
     = (fst (kahan_run K (fst s0) (real_parts xs)), fst (kahan_run K (snd s0) (imaginary_parts xs)))
  /\ cmean_run K s0 xs
     = (mean_set_mean K (mean_set_run K (fst s0) (real_parts xs)),
        mean_set_mean K (mean_set_run K (snd s0) (imaginary_parts xs)))
  /\ cvar_mean K (cvar_run K s0 xs)
     = (im_mean K (imean_set_run K (fst s0) (real_parts xs)), im_mean K (imean_set_run K (snd s0) (imaginary_parts xs))).
Proof. exact parts_all. Qed.
Print Assumptions C74_parts.
Example C74_ex_parts : shown (cmean_run QcN (0%Qc, 0%Qc) ex_complex) = ((-2#3)%Q, (13#6)%Q)
  /\ shown (csum_run QcN (0%Qc, 0%Qc) ex_complex) = ((-2#1)%Q, (13#2)%Q).
Proof. split; vm_compute; reflexivity. Qed.

Theorem C74_weighted_parts : forall (K : Num) (s0 : car K * car K) (h : list (car K * car K * car K)),
  let W := wmean_set_run K (fst s0) (zero K) (weighted_real_parts h) in
  let W' := wmean_set_run K (snd s0) (zero K) (weighted_imaginary_parts h) in
  cweighted_sum_run K s0 h = (wm_sum K W, wm_sum K W')
  /\ cweighted_mean_run K s0 h = (wmean_set_mean K W, wmean_set_mean K W')
  /\ snd (fst (cwvar_run K s0 h))
     = (wv_mean K (wvar_set_run K (fst s0) (zero K) (weighted_real_parts h)),
        wv_mean K (wvar_set_run K (snd s0) (zero K) (weighted_imaginary_parts h))).
Proof. exact weighted_parts_all. Qed.
Print Assumptions C74_weighted_parts.
Example C74_ex_weighted_parts :
  shown (cweighted_mean_run QcN (0%Qc, 0%Qc) ex_complex_weighted) = ((-17#9)%Q, (13#9)%Q).
Proof. vm_compute. reflexivity. Qed.

(** The rolling sum and the (lazy) rolling mean.  [M] is the order of a rolling moment kept in the two real sets. *)
Theorem C74_rolling : forall (K : Num) (N M : nat) (s0 : car K * car K) (xs : list (car K * car K)) (r i : roll K),
  roll_run K N M (fst s0) (real_parts xs) = Some r -> roll_run K N M (snd s0) (imaginary_parts xs) = Some i ->
  exists s, crolling_run K N s0 xs = Some s /\ snd s = (ro_sum K r, ro_sum K i)
    /\ crolling_mean K N s = (ro_lazy_mean K N r, ro_lazy_mean K N i).
Proof. exact crolling_parts_all. Qed.
Print Assumptions C74_rolling.
Example C74_ex_rolling :
  match roll_run QcN 2 1 0%Qc (real_parts ex_complex), roll_run QcN 2 1 0%Qc (imaginary_parts ex_complex),
        crolling_run QcN 2 (0%Qc, 0%Qc) ex_complex with
  | Some r, Some i, Some s => shown (crolling_mean QcN 2 s) = ((-3#2)%Q, (9#4)%Q)
  | _, _, _ => False
  end.
Proof. vm_compute. reflexivity. Qed.

(** ** In exact arithmetic: moments are averages of complex powers, and both variances are the average of the squares
    (z - m)^2, which is Var(real) - Var(imaginary) + 2i Cov(real, imaginary). *)
Theorem C74_moment : forall (K : Num), OrderedLaws K -> forall (N : nat) (xs : list (car K * car K)),
  1 <= N -> xs <> [] ->
  cmoment_run K N (zero K, zero K) xs
  = Some (average K (fun z => fst (complex_power K z N)) xs, average K (fun z => snd (complex_power K z N)) xs).
Proof. exact complex_moment. Qed.
Print Assumptions C74_moment.
Example C74_ex_moment : option_map shown (cmoment_run QcN 3 (0%Qc, 0%Qc) ex_complex) = Some ((-143#12)%Q, (-421#24)%Q)
  /\ shown (complex_power QcN (Q2Qc 1, Q2Qc 2) 3) = ((-11#1)%Q, (-2#1)%Q).
Proof. split; vm_compute; reflexivity. Qed.

Theorem C74_variance : forall (K : Num), OrderedLaws K -> forall xs : list (car K * car K), xs <> [] ->
  let v := (sub K (Variance K (real_parts xs)) (Variance K (imaginary_parts xs)),
            add K (Covariance K xs) (Covariance K xs)) in
  cvar_variance K (cvar_run K (zero K, zero K) xs) = v /\ clazy_variance_run K (zero K, zero K) xs = Some v.
Proof. exact variance_all. Qed.
Print Assumptions C74_variance.
Example C74_ex_variance : shown (cvar_variance QcN (cvar_run QcN (0%Qc, 0%Qc) ex_complex)) = ((5#6)%Q, (29#9)%Q).
Proof. vm_compute. reflexivity. Qed.

Theorem C74_weighted_variance : forall (K : Num), OrderedLaws K -> forall h : list (car K * car K * car K),
  h <> [] -> PrefixWeightsNonzero K h ->
  snd (cwvar_run K (zero K, zero K) h)
  = (sub K (WVariance K (weighted_real_parts h)) (WVariance K (weighted_imaginary_parts h)),
     add K (WCovariance K h) (WCovariance K h)).
Proof. exact cwvar_spec. Qed.
Print Assumptions C74_weighted_variance.
Example C74_ex_weighted_variance : PrefixWeightsNonzero QcN ex_complex_weighted
  /\ shown (snd (cwvar_run QcN (0%Qc, 0%Qc) ex_complex_weighted)) = ((25#54)%Q, (316#81)%Q).
Proof.
  split; [apply Qc_positive_weights; repeat (apply Forall_cons; [reflexivity|]); apply Forall_nil | vm_compute; reflexivity].
Qed.

(** So the variance of complex samples does not measure their spread: it vanishes for 1, i, -1, -i, and it is -1 for
    i, -i. *)
Theorem C74_spread_refuted : exists xs : list (Qc * Qc), In (Q2Qc 1, Q2Qc 0) xs /\ In (Q2Qc (-1), Q2Qc 0) xs
  /\ cvar_variance QcN (cvar_run QcN (0%Qc, 0%Qc) xs) = (0%Qc, 0%Qc)
  /\ clazy_variance_run QcN (0%Qc, 0%Qc) xs = Some (0%Qc, 0%Qc).
Proof. exact spread_zero. Qed.
Print Assumptions C74_spread_refuted.
Theorem C74_negative_variance_refuted : exists xs : list (Qc * Qc), xs <> []
  /\ (fst (cvar_variance QcN (cvar_run QcN (0%Qc, 0%Qc) xs)) < 0)%Qc
  /\ snd (cvar_variance QcN (cvar_run QcN (0%Qc, 0%Qc) xs)) = 0%Qc.
Proof. exact spread_negative. Qed.
Print Assumptions C74_negative_variance_refuted.
