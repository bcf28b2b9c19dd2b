(** Complex samples: the lists of their real and of their imaginary parts, and the same with weights. *)
From Coq Require Import List.
From Verif Require Import Num.
Import ListNotations.

Section Parts.
Context {T : Type}.
Definition real_parts (xs : list (T * T)) : list T := map fst xs.
Definition imaginary_parts (xs : list (T * T)) : list T := map snd xs.
(** (sample, weight) *)
Definition weighted_real_parts (h : list (T * T * T)) : list (T * T) := map (fun p => (fst (fst p), snd p)) h.
Definition weighted_imaginary_parts (h : list (T * T * T)) : list (T * T) := map (fun p => (snd (fst p), snd p)) h.
End Parts.

(** z^n for a complex number z = a + bi, and the average of the powers of a list, both parts. *)
Section Power.
Variable K : Num.
Fixpoint complex_power (z : car K * car K) (n : nat) : car K * car K :=
  match n with
  | O => (one K, zero K)
  | S m => let p := complex_power z m in
           (sub K (mul K (fst z) (fst p)) (mul K (snd z) (snd p)), add K (mul K (fst z) (snd p)) (mul K (snd z) (fst p)))
  end.
End Power.
