(** Property C69. *)
From Coq Require Import List Arith ZArith QArith Qcanon.
From Verif Require Import Num NumFacts ModelDensity ModelTail ModelFramework ModelLibrary ModelSets ModelWhole SpecMemory ProofFrameworkEx ProofTailTop ProofWholeEx ProofMemory ModelHeap ProofHeap.
Import ListNotations.
Local Open Scope nat_scope.

(** C69: what a set stores does not grow with the number of samples: for every set of features and every sequence of samples and
    drops, the number of elements in its containers is at most a sum of amounts fixed by its features and the arguments of its
    constructor, and its accumulators are those it was constructed with. *)
Theorem C69_set : forall (K : Num) (A : Args K), InPlace (a_heap K A) -> forall sqrt enum W fs es,
  let B := WholeSets K A sqrt in
  let s := history Library B (construct Library B enum W fs) es in
  map (who Library B) s = make_tuple Library enum W fs /\
  list_sum (map (fun a => cell_elements K (state Library B a)) s)
    <= list_sum (map (fun t => allowance K A (fst t)) (make_tuple Library enum W fs)).
Proof. exact whole_memory. Qed.
Print Assumptions C69_set.

(** Extractions do not change this: the histograms hold exactly what they were constructed with ... *)
Theorem C69_density : forall (K : Num) (lo hi : car K) (c b : nat) (s0 : car K),
  (forall ops s, density_run K lo hi c b s0 ops = Ok s -> dens_elements K s = c + 3 * (b + 2)) /\
  (forall ops s, weighted_density_run K lo hi c b s0 ops = Ok s -> dens_elements K s = c + 3 * (b + 2)).
Proof. exact density_memory. Qed.
Print Assumptions C69_density.

(** ... and a tail with its variates and weights at most the cache size for the indices, the samples and each of them. *)
Theorem C69_tail : forall (H : HeapOps), InPlace H -> forall (A V : Type) (pred : A -> A -> bool) (k nv : nat) (dA : A) (dV : V) ops s,
  tail_run H pred (tail_init k nv dA dV) ops = Ok s -> tail_elements s <= (2 + nv) * k.
Proof. exact tail_memory. Qed.
Print Assumptions C69_tail.

(** The binary heap of standard libraries works in place. *)
Theorem C69_binary_heap : InPlace binary_heap.
Proof. exact binary_heap_in_place. Qed.
Print Assumptions C69_binary_heap.

(** The hypothesis can be met, and the bound is reached: tail and density with caches of 4 and 2 samples and 2 bins, after 0, 3 and
    6 samples. *)
Example C69_example : InPlace sorting_heap /\
  (let fs := [plain t_density; plain (t_tail on_right)] in
   let stored n := list_sum (map (fun a => cell_elements QcN (state Library (WB Qcmult) a))
     (history Library (WB Qcmult) (construct Library (WB Qcmult) in_order false fs) (map (wpush Qcmult) (firstn n [3; 1; 4; 1; 5; 9]%Z)))) in
   list_sum (map (fun t => allowance QcN (ex_args Qcmult) (fst t)) (make_tuple Library in_order false fs)) = 26 /\
   map stored [0; 3; 6] = [22; 25; 26]).
Proof. exact memory_example. Qed.
