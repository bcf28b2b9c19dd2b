(** Property theorems C13 (compensated summation). *)
From Coq Require Import List Reals Lra.
From Verif Require Import Num NumFacts ModelBasic ModelRounding SpecStats ProofBasic ProofKahan.
Import ListNotations.

(** No rounding: the exact total and a zero compensation. *)
Theorem C13_exact : forall (K : Num), FieldLaws K -> forall (s0 : car K) (xs : list (car K)),
  kahan_run K s0 xs = (add K s0 (total K (fun x => x) xs), zero K).
Proof. exact kahan_run_spec. Qed.
Print Assumptions C13_exact.
Theorem C13_weighted_exact : forall (K : Num), FieldLaws K -> forall (s0 : car K) (h : list (car K * car K)),
  weighted_kahan_run K s0 h = (add K s0 (total K (fun p => mul K (fst p) (snd p)) h), zero K).
Proof. exact weighted_kahan_run_spec. Qed.
Print Assumptions C13_weighted_exact.
(** Any arithmetic whose sums and differences have relative error at most [u]: the first-order
    error constant does not depend on the number of samples. *)
Theorem C13_rounded : forall (F : R -> Prop) (rnd : R -> R) (u : R),
  RoundingModel F rnd u -> (0 <= u <= 1 / 100)%R ->
  forall (s0 : R) (xs : list R), F s0 -> Forall F xs -> (INR (length xs) * (u * u) <= 1 / 120)%R ->
  (Rabs (fst (kahan_run (RndN rnd) s0 xs) - (s0 + total RN (fun x => x) xs))
   <= (5 * u + 9 * INR (length xs) * (u * u)) * (Rabs s0 + total RN Rabs xs))%R.
Proof. exact kahan_bound. Qed.
Print Assumptions C13_rounded.
(** IEEE binary64 with gradual underflow, round to nearest even, no overflow: u = 2^-53. *)
Theorem C13_binary64 : forall (s0 : R) (xs : list R), b64_format s0 -> Forall b64_format xs ->
  (INR (length xs) * (b64_u * b64_u) <= 1 / 120)%R ->
  (Rabs (fst (kahan_run (RndN b64_round) s0 xs) - (s0 + total RN (fun x => x) xs))
   <= (5 * b64_u + 9 * INR (length xs) * (b64_u * b64_u)) * (Rabs s0 + total RN Rabs xs))%R.
Proof. exact (kahan_bound b64_format b64_round b64_u b64_rounding b64_u_small). Qed.
Print Assumptions C13_binary64.
(** The weighted version: the products are rounded, then summed with the same bound. *)
Theorem C13_weighted_binary64 : forall (s0 : R) (h : list (R * R)), b64_format s0 ->
  (INR (length h) * (b64_u * b64_u) <= 1 / 120)%R ->
  let ps := map (fun p => b64_round (fst p * snd p)) h in
  (Rabs (fst (weighted_kahan_run (RndN b64_round) s0 h) - (s0 + total RN (fun x => x) ps))
   <= (5 * b64_u + 9 * INR (length h) * (b64_u * b64_u)) * (Rabs s0 + total RN Rabs ps))%R.
Proof. exact weighted_kahan_b64. Qed.
Print Assumptions C13_weighted_binary64.
Example C13_ex : b64_format 0 /\ b64_format 1 /\ (INR 3 * (b64_u * b64_u) <= 1 / 120)%R.
Proof. exact b64_example. Qed.
