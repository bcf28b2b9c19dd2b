(** Model of the histogram accumulators: statistics/density.hpp, weighted_density.hpp and the
    median estimators built on them (median.hpp, weighted_median.hpp). *)
From Coq Require Import List Arith Bool.
From Verif Require Import Num ModelMinMax ModelRolling.
Import ListNotations.

Section Density.
Variable K : Num.
Local Notation T := (car K).
Local Notation "0" := (zero K) : num_scope.
Local Notation "1" := (one K) : num_scope.
Local Notation "x + y" := (add K x y) : num_scope.
Local Notation "x - y" := (sub K x y) : num_scope.
Local Notation "x * y" := (mul K x y) : num_scope.
Local Notation "x / y" := (div K x y) : num_scope.
Local Notation "x <? y" := (ltb K x y) : num_scope.
Local Notation "# n" := (ofnat K n) (at level 2) : num_scope.
Local Open Scope num_scope.

(** The two headers are the same text up to what is cached ([E]: a sample, or a sample and its
    weight), what is added to a bin ([amt]: ++ or += weight) and the denominator of the result
    ([den]: count(args) or sum_of_weights(args)).  [lo], [hi]: the limits of the sample type, from
    which the min and max accumulators start. *)
Variable E : Type.
Variable val : E -> T.
Variable amt : E -> T.
Variable den : nat -> T -> T.
Variable lo hi : T.
Definition dens_limits : Limits := {| lcar := T; lltb := ltb K; lowest := lo; highest := hi |}.

Variable cache_size num_bins : nat.

(** Members of density_impl (density.hpp 204-210) preceded by the accumulators it depends on. *)
Record dens := {
  de_count : nat;
  de_min : T;
  de_max : T;
  de_wsum : T;
  de_cache : list E;
  de_bins : list T;
  de_pos : list T;
  de_hist : list (T * T);
  de_dirty : bool
}.

(** density.hpp 72-88; [s0] is args[sample | Sample()], [e0] the value-initialised cache entry. *)
Definition dens_init (s0 : T) (e0 : E) : dens :=
  {| de_count := 0; de_min := min_init dens_limits; de_max := max_init dens_limits; de_wsum := 0;
     de_cache := repeat e0 cache_size; de_bins := repeat 0 (num_bins + 2);
     de_pos := repeat 0 (num_bins + 2); de_hist := repeat (s0 / 1, s0 / 1) (num_bins + 2);
     de_dirty := true |}.

(** std::upper_bound on the (sorted) positions: the number of leading elements not above x. *)
Fixpoint upper_bound (l : list T) (x : T) : nat :=
  match l with
  | [] => O
  | y :: l => if x <? y then O else S (upper_bound l x)
  end.

(** density.hpp 118-139 = 144-163: the index of the bin of [x]. *)
Definition bin_index (pos : list T) (x : T) : outcome nat :=
  match nth_error pos 1, nth_error pos (num_bins + 1) with
  | Some p1, Some pl =>
      if x <? p1 then Ok O
      else if leb K pl x then Ok (num_bins + 1)%nat
      else match upper_bound pos x with
           | O => UB                        (* d - 1 with d = 0 *)
           | S d => Ok d
           end
  | _, _ => UB
  end.
(** samples_in_bin[i] += amt *)
Definition bin_add (pos bins : list T) (e : E) : outcome (list T) :=
  match bin_index pos (val e) with
  | Ok i => match nth_error bins i with
            | Some c => Ok (set_nth i (c + amt e) bins)
            | None => UB
            end
  | NotANumber => NotANumber
  | UB => UB
  end.
Definition bin_add_all (pos : list T) (bins : list T) (es : list E) : outcome (list T) :=
  fold_left (fun o e => match o with Ok b => bin_add pos b e | o => o end) es (Ok bins).

(** density.hpp 106-113 *)
Definition bin_positions (minimum maximum : T) : list T :=
  let bin_size := (maximum - minimum) / #num_bins in
  map (fun i => minimum + (#i - 1) * bin_size) (seq 0 (num_bins + 2)).

(** density.hpp 90-164: operator(), given what count, min, max (and sum_of_weights) of the set
    report at that moment. *)
Definition dens_operate (cnt : nat) (mn mx ws : T) (s : dens) (e : E) : outcome dens :=
  let cache := if Nat.leb cnt cache_size then set_nth (cnt - 1) e (de_cache s) else de_cache s in
  let pos := if Nat.eqb cnt cache_size then bin_positions mn mx else de_pos s in
  let bins := if Nat.eqb cnt cache_size then bin_add_all pos (de_bins s) cache
              else if Nat.ltb cache_size cnt then bin_add pos (de_bins s) e
              else Ok (de_bins s) in
  match bins with
  | Ok bins => Ok {| de_count := cnt; de_min := mn; de_max := mx; de_wsum := ws; de_cache := cache;
                     de_bins := bins; de_pos := pos; de_hist := de_hist s; de_dirty := true |}
  | NotANumber => NotANumber
  | UB => UB
  end.
(** A sample: count, min, max and sum_of_weights are updated first. *)
Definition dens_push (s : dens) (e : E) : outcome dens :=
  dens_operate (S (de_count s)) (min_assign dens_limits (de_min s) (val e))
    (max_assign dens_limits (de_max s) (val e)) (de_wsum s + amt e) s e.

(** density.hpp 169-187: the state after an extraction; the result is its histogram. *)
Definition dens_extract (s : dens) : dens :=
  if de_dirty s then
    {| de_count := de_count s; de_min := de_min s; de_max := de_max s; de_wsum := de_wsum s;
       de_cache := de_cache s; de_bins := de_bins s; de_pos := de_pos s;
       de_hist := map (fun pc => (fst pc, snd pc / den (de_count s) (de_wsum s)))
                      (combine (de_pos s) (de_bins s));
       de_dirty := false |}
  else s.
Definition dens_result (s : dens) : list (T * T) := de_hist (dens_extract s).

Inductive dens_op := DPush (e : E) | DExtract.
Definition dens_step (o : outcome dens) (op : dens_op) : outcome dens :=
  match o with
  | Ok s => match op with DPush e => dens_push s e | DExtract => Ok (dens_extract s) end
  | o => o
  end.
Definition dens_run (s : dens) (ops : list dens_op) : outcome dens := fold_left dens_step ops (Ok s).

(** with_density_median_impl, median.hpp 66-126 (the weighted version, weighted_median.hpp 66-127,
    is the same text on weighted_density). *)
Record dmed := { dm_sum : T; dm_dirty : bool; dm_median : option T }.   (* None: uninitialised *)
Definition dmed_init (s0 : T) : dmed := {| dm_sum := s0 / 1; dm_dirty := true; dm_median := None |}.
Definition dmed_op (s : dmed) : dmed := {| dm_sum := dm_sum s; dm_dirty := true; dm_median := dm_median s |}.
(** lines 97-101: the while loop; returns the number of increments of [it] and the sum.  [h] is
    what remains of the histogram: dereferencing its end is undefined. *)
Fixpoint dmed_loop (half cnt : T) (h : list (T * T)) (sum : T) : outcome (nat * T) :=
  if sum <? half then
    match h with
    | [] => UB
    | b :: h =>
        match dmed_loop half cnt h (sum + snd b * cnt) with
        | Ok (n, s) => Ok (S n, s)
        | o => o
        end
    end
  else Ok (O, sum).
(** lines 88-110 *)
Definition dmed_result (s : dmed) (cnt : nat) (h : list (T * T)) : outcome (dmed * T) :=
  if dm_dirty s then
    let half := 1 / (1 + 1) * #cnt in
    match dmed_loop half #cnt h (dm_sum s) with
    | Ok (O, _) => UB                       (* --it of begin() *)
    | Ok (S i, sum) =>
        match nth_error h i, nth_error h (S i) with
        | Some (p, y), Some (q, _) =>
            let over := (sum - half) / (y * #cnt) in
            let m := p * over + q * (1 - over) in
            Ok ({| dm_sum := sum; dm_dirty := false; dm_median := Some m |}, m)
        | _, _ => UB
        end
    | NotANumber => NotANumber
    | UB => UB
    end
  else match dm_median s with Some m => Ok (s, m) | None => UB end.

(** A set with the density and the median: pushes, median extractions. *)
Inductive dmed_ops := MPush (e : E) | MExtract.
Definition dmed_step (o : outcome (dens * dmed * list T)) (op : dmed_ops) : outcome (dens * dmed * list T) :=
  match o with
  | Ok (d, m, out) =>
      match op with
      | MPush e => match dens_push d e with Ok d' => Ok (d', dmed_op m, out) | NotANumber => NotANumber | UB => UB end
      | MExtract =>
          let d' := if dm_dirty m then dens_extract d else d in
          match dmed_result m (de_count d') (de_hist d') with
          | Ok (m', r) => Ok (d', m', out ++ [r])
          | NotANumber => NotANumber
          | UB => UB
          end
      end
  | o => o
  end.
(** ... and the values it returned so far. *)
Definition dmed_run (s0 : T) (e0 : E) (ops : list dmed_ops) : outcome (dens * dmed * list T) :=
  fold_left dmed_step ops (Ok (dens_init s0 e0, dmed_init s0, [])).
End Density.

(** The unweighted and the weighted instance. *)
Section Instances.
Variable K : Num.
Local Notation T := (car K).
Definition density_run (lo hi : T) (c b : nat) (s0 : T) (ops : list (dens_op T)) : outcome (dens K T) :=
  dens_run K T (fun x => x) (fun _ => one K) (fun n _ => ofnat K n) lo hi c b
    (dens_init K T lo hi c b s0 (zero K)) ops.
Definition density_result (s : dens K T) : list (T * T) := dens_result K T (fun n _ => ofnat K n) s.
Definition weighted_density_run (lo hi : T) (c b : nat) (s0 : T) (ops : list (dens_op (T * T))) : outcome (dens K (T * T)) :=
  dens_run K (T * T) fst snd (fun _ w => w) lo hi c b (dens_init K (T * T) lo hi c b s0 (zero K, zero K)) ops.
Definition weighted_density_result (s : dens K (T * T)) : list (T * T) := dens_result K (T * T) (fun _ w => w) s.
Definition density_median_run (lo hi : T) (c b : nat) (s0 : T) (ops : list (dmed_ops T)) :=
  dmed_run K T (fun x => x) (fun _ => one K) (fun n _ => ofnat K n) lo hi c b s0 (zero K) ops.
Definition weighted_density_median_run (lo hi : T) (c b : nat) (s0 : T) (ops : list (dmed_ops (T * T))) :=
  dmed_run K (T * T) fst snd (fun _ w => w) lo hi c b s0 (zero K, zero K) ops.
End Instances.
Arguments DPush {E}. Arguments DExtract {E}. Arguments MPush {E}. Arguments MExtract {E}.
