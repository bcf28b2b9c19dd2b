(** Model of the P-square family: statistics/p_square_quantile.hpp, p_square_cumul_dist.hpp,
    extended_p_square.hpp, extended_p_square_quantile.hpp, their weighted versions, and the median
    computed from the cumulative distribution (median.hpp, weighted_median.hpp).

    The five P-square headers repeat the same text for locating a sample, moving the markers and
    adjusting them; it is transcribed once.  A division by zero in C++ yields an infinity or a NaN
    here (the operands are floating point): wherever that can happen it is an explicit case. *)
From Coq Require Import List Arith Bool.
From Verif Require Import Num ModelRolling ModelDensity.
Import ListNotations.

Definition obnd {A B} (o : outcome A) (f : A -> outcome B) : outcome B :=
  match o with Ok a => f a | NotANumber => NotANumber | UB => UB end.
(** All entries read, or undefined behaviour. *)
Fixpoint all_read {A} (l : list (option A)) : outcome (list A) :=
  match l with
  | [] => Ok []
  | Some a :: l => obnd (all_read l) (fun r => Ok (a :: r))
  | None :: _ => UB
  end.

Section PSquare.
Variable K : Num.
Local Notation T := (car K).
Local Notation "0" := (zero K) : num_scope.
Local Notation "1" := (one K) : num_scope.
Local Notation "x + y" := (add K x y) : num_scope.
Local Notation "x - y" := (sub K x y) : num_scope.
Local Notation "x * y" := (mul K x y) : num_scope.
Local Notation "x / y" := (div K x y) : num_scope.
Local Notation "- x" := (opp K x) : num_scope.
Local Notation "x <? y" := (ltb K x y) : num_scope.
Local Notation "# n" := (ofnat K n) (at level 2) : num_scope.
Local Open Scope num_scope.

Definition keqb (x y : T) : bool := negb (x <? y) && negb (y <? x).
Definition half : T := 1 / (1 + 1).

(** ** Markers *)
(** heights q_i, actual positions n_i, desired positions n'_i. *)
Record marks := { mh : list T; mp : list T; md : list T }.

(** Number of markers. *)
Variable M : nat.

(** p_square_quantile.hpp 109-132 (= p_square_cumul_dist.hpp 106-127, extended_p_square.hpp
    148-170 and the weighted headers): find the cell and adjust the extreme values.
    [upper_bound] is std::upper_bound on the sorted heights. *)
Definition locate (h : list T) (x : T) : outcome (list T * nat) :=
  match nth_error h 0, nth_error h (M - 1) with
  | Some a, Some z =>
      if x <? a then Ok (set_nth 0 x h, 1%nat)
      else if leb K z x then Ok (set_nth (M - 1) x h, (M - 1)%nat)
      else Ok (h, upper_bound K h x)
  | _, _ => UB
  end.

(** p_square_quantile.hpp 134-138: positions of the markers from the cell on; [w] is 1 or the weight. *)
Definition bump (k : nat) (w : T) (p : list T) : list T := firstn k p ++ map (fun y => y + w) (skipn k p).

(** p_square_quantile.hpp 147-187: the adjustment of marker [i].  [sign_d] is the short
    d / abs(d) of a number that is >= 1 or <= -1.  If a divisor is 0 (it cannot be, except in
    the weighted cumulative distribution) then h is infinite or NaN, and the test on [h] fails. *)
Definition adjust_at (s : marks) (i : nat) : outcome marks :=
  match nth_error (mh s) (i - 1), nth_error (mh s) i, nth_error (mh s) (i + 1) with
  | Some hl, Some hc, Some hr =>
    match nth_error (mp s) (i - 1), nth_error (mp s) i, nth_error (mp s) (i + 1), nth_error (md s) i with
    | Some pl, Some pc, Some pr, Some dc =>
        let d := dc - pc in
        let dp := pr - pc in
        let dm := pl - pc in
        let hp := (hr - hc) / dp in
        let hm := (hl - hc) / dm in
        if (leb K 1 d && (1 <? dp)) || (leb K d (- (1)) && (dm <? - (1))) then
          let sign_d := if 0 <? d then 1 else - (1) in
          let h := hc + sign_d / (dp - dm) * ((sign_d - dm) * hp + (dp - sign_d) * hm) in
          let regular := negb (keqb dp 0) && negb (keqb dm 0) && negb (keqb dp dm) in
          let h' := if regular && (hl <? h) && (h <? hr) then h
                    else let h1 := if 0 <? d then hc + hp else hc in
                         if d <? 0 then h1 - hm else h1 in
          Ok {| mh := set_nth i h' (mh s); mp := set_nth i (pc + sign_d) (mp s); md := md s |}
        else Ok s
    | _, _, _, _ => UB
    end
  | _, _, _ => UB
  end.
(** p_square_quantile.hpp 146 (i = 1 .. 3), p_square_cumul_dist.hpp 140 (i = 1 .. b - 1),
    extended_p_square.hpp 184 (i = 1 .. num_markers - 2). *)
Definition adjust (s : marks) : outcome marks :=
  fold_left (fun o i => obnd o (fun s => adjust_at s i)) (seq 1 (M - 2)) (Ok s).

(** p_square_quantile.hpp 105-188: a sample after the initialisation phase.  [reset]: the weighted
    versions also set actual_positions[0] = weight at a new minimum (weighted_p_square_quantile.hpp
    121).  [des]: the new desired positions from the new actual ones and the old desired ones. *)
Definition msync (reset : bool) (des : list T -> list T -> outcome (list T)) (s : marks) (x w : T) : outcome marks :=
  obnd (locate (mh s) x) (fun hk =>
    let p0 := match nth_error (mh s) 0 with
              | Some a => if reset && (x <? a) then set_nth 0 w (mp s) else mp s
              | None => mp s
              end in
    let p := bump (snd hk) w p0 in
    obnd (des p (md s)) (fun d => adjust {| mh := fst hk; mp := p; md := d |})).

(** ** The initialisation phase *)
(** std::sort *)
Fixpoint std_insert (x : T) (l : list T) : list T :=
  match l with [] => [x] | y :: t => if y <? x then y :: std_insert x t else x :: l end.
Definition std_sort (l : list T) : list T := fold_right std_insert [] l.

(** std::min_element on the heights of a list of (height, weight) pairs: index of the first
    smallest ([i]: the current index, [bi], [b]: the best so far). *)
Fixpoint min_element_from (l : list (T * T)) (i bi : nat) (b : T) : nat :=
  match l with
  | [] => bi
  | x :: l => if fst x <? b then min_element_from l (S i) i (fst x) else min_element_from l (S i) bi b
  end.
(** weighted_p_square_quantile.hpp 83-101: selection sort of the heights, moving the weights along.
    [fuel]: the length (the loop makes one pass per element). *)
Fixpoint sel_sort (fuel : nat) (l : list (T * T)) : list (T * T) :=
  match fuel, l with
  | S fuel, x :: t =>
      match min_element_from t 1 0 (fst x) with
      | O => x :: sel_sort fuel t
      | S d => nth d t x :: sel_sort fuel (set_nth d x t)
      end
  | _, _ => []
  end.
(** weighted_p_square_quantile.hpp 103-107: for (i = 1; i < c; ++i) p[i] += p[i - 1]. *)
Fixpoint cumulate_from (a : T) (c : nat) (l : list T) : list T :=
  match c, l with
  | S c, x :: l => (x + a) :: cumulate_from (x + a) c l
  | _, l => l
  end.
Definition cumulate (c : nat) (l : list T) : list T :=
  match l with [] => [] | x :: l => x :: cumulate_from x (c - 1) l end.

(** ** A P-square accumulator with the count and sum_of_weights it depends on *)
Record psq := { ps_count : nat; ps_wsum : T; ps_marks : marks }.

(** [weighted], [cum] (bound of the summation of the initial weights) and [des] distinguish the
    headers; [des] also receives sum_of_weights(args). *)
Variable weighted : bool.
Variable cum : nat.
Variable des : T -> list T -> list T -> outcome (list T).

(** p_square_quantile.hpp 91-189 (and the corresponding operator() of the other headers), given
    what count and sum_of_weights of the set report at that moment. *)
Definition psq_operate (cnt : nat) (W : T) (m : marks) (x w : T) : outcome marks :=
  if Nat.leb cnt M then
    let h := set_nth (cnt - 1) x (mh m) in
    let p := if weighted then set_nth (cnt - 1) w (mp m) else mp m in
    if Nat.eqb cnt M then
      if weighted then
        let hw := sel_sort M (combine h p) in
        Ok {| mh := map fst hw; mp := cumulate cum (map snd hw); md := md m |}
      else Ok {| mh := std_sort h; mp := p; md := md m |}
    else Ok {| mh := h; mp := p; md := md m |}
  else msync weighted (des W) m x w.
(** A sample: count and sum_of_weights are updated first. *)
Definition psq_push (s : psq) (x w : T) : outcome psq :=
  let cnt := S (ps_count s) in
  let W := ps_wsum s + w in
  obnd (psq_operate cnt W (ps_marks s) x w) (fun m => Ok {| ps_count := cnt; ps_wsum := W; ps_marks := m |}).
Definition psq_run (m0 : marks) (es : list (T * T)) : outcome psq :=
  fold_left (fun o e => obnd o (fun s => psq_push s (fst e) (snd e))) es
            (Ok {| ps_count := 0; ps_wsum := 0; ps_marks := m0 |}).
End PSquare.

Section Instances.
Variable K : Num.
Local Notation T := (car K).
Local Notation "0" := (zero K) : num_scope.
Local Notation "1" := (one K) : num_scope.
Local Notation "x + y" := (add K x y) : num_scope.
Local Notation "x - y" := (sub K x y) : num_scope.
Local Notation "x * y" := (mul K x y) : num_scope.
Local Notation "x / y" := (div K x y) : num_scope.
Local Notation "x <? y" := (ltb K x y) : num_scope.
Local Notation "# n" := (ofnat K n) (at level 2) : num_scope.
Local Open Scope num_scope.
Local Notation two := (1 + 1).

Definition units (xs : list T) : list (T * T) := map (fun x => (x, 1)) xs.
(** p_square_quantile.hpp 140-144: desired_positions[i] += positions_increments[i].  (In
    p_square_cumul_dist.hpp 133-138 the loop starts at 1; increment 0 is 0 / b = 0.) *)
Definition des_inc (inc : list T) (_ : T) (_ d : list T) : outcome (list T) :=
  Ok (map (fun c => fst c + snd c) (combine d inc)).

(** *** p_square_quantile.hpp 63-88, 191-194 *)
Definition pq_inc (p : T) : list T := [0; p / two; p; (1 + p) / two; 1].
Definition pq_init (p : T) : marks K :=
  {| mh := repeat 0 5; mp := map (fun i => #i + 1) (seq 0 5);
     md := [1; 1 + two * p; 1 + (two + two) * p; (two + 1) + two * p; two + two + 1] |}.
Definition pq_run (p : T) (xs : list T) : outcome (psq K) :=
  psq_run K 5 false 0 (des_inc (pq_inc p)) (pq_init p) (units xs).
Definition pq_result (s : psq K) : outcome T :=
  match nth_error (mh K (ps_marks K s)) 2 with Some r => Ok r | None => UB end.

(** *** weighted_p_square_quantile.hpp 61-67, 143-151 *)
Definition wpq_init : marks K := {| mh := repeat 0 5; mp := repeat 0 5; md := repeat 0 5 |}.
Definition wpq_des (p W : T) (pos _ : list T) : outcome (list T) :=
  match nth_error pos 0 with
  | Some p0 => Ok [p0; (W - p0) * p / two + p0; (W - p0) * p + p0; (W - p0) * (1 + p) / two + p0; W]
  | None => UB
  end.
Definition wpq_run (p : T) (es : list (T * T)) : outcome (psq K) :=
  psq_run K 5 true 5 (wpq_des p) wpq_init es.

(** *** p_square_cumul_dist.hpp 66-85, 182-204 *)
Definition cd_init (b : nat) : marks K :=
  {| mh := repeat 0 (b + 1); mp := map (fun i => #i + 1) (seq 0 (b + 1)); md := map (fun i => #i + 1) (seq 0 (b + 1)) |}.
Definition cd_inc (b : nat) : list T := map (fun i => #i / #b) (seq 0 (b + 1)).
Definition cd_run (b : nat) (xs : list T) : outcome (psq K) :=
  psq_run K (b + 1) false 0 (des_inc (cd_inc b)) (cd_init b) (units xs).
Definition cd_pairs (s : psq K) : list (T * T) :=
  map (fun hp => (fst hp, snd hp / #(ps_count K s))) (combine (mh K (ps_marks K s)) (mp K (ps_marks K s))).

(** *** weighted_p_square_cumul_dist.hpp 62-71, 105-109 (summation up to b, not b + 1), 142-147 (i - 1), 192-212 *)
Definition wcd_init (b : nat) : marks K :=
  {| mh := repeat 0 (b + 1); mp := repeat 0 (b + 1); md := repeat 0 (b + 1) |}.
Definition wcd_des (b : nat) (W : T) (pos d : list T) : outcome (list T) :=
  match nth_error pos 0, nth_error d 0 with
  | Some p0, Some d0 => Ok (d0 :: map (fun i => p0 + #(i - 1) * (W - p0) / #b) (seq 1 b))
  | _, _ => UB
  end.
Definition wcd_run (b : nat) (es : list (T * T)) : outcome (psq K) :=
  psq_run K (b + 1) true b (wcd_des b) (wcd_init b) es.
Definition wcd_pairs (s : psq K) : list (T * T) :=
  map (fun hp => (fst hp, snd hp / ps_wsum K s)) (combine (mh K (ps_marks K s)) (mp K (ps_marks K s))).

(** The constructor and operator() of the two, for sequences with extractions in between. *)
Definition cd_start (b : nat) : psq K := {| ps_count := 0; ps_wsum := 0; ps_marks := cd_init b |}.
Definition cd_push (b : nat) : psq K -> T -> T -> outcome (psq K) := psq_push K (b + 1) false 0 (des_inc (cd_inc b)).
Definition wcd_start (b : nat) : psq K := {| ps_count := 0; ps_wsum := 0; ps_marks := wcd_init b |}.
Definition wcd_push (b : nat) : psq K -> T -> T -> outcome (psq K) := psq_push K (b + 1) true b (wcd_des b).

(** *** extended_p_square.hpp 86-125: increments 0, probabilities, 1 at the even indices, their
    means at the odd ones. *)
Fixpoint ext_inc (pr : list T) : list T :=
  match pr with
  | a :: (b :: _) as t => a :: half K * (a + b) :: ext_inc t
  | pr => pr
  end.
Definition ext_incs (probs : list T) : list T := ext_inc (0 :: probs ++ [1]).
Definition ext_markers (probs : list T) : nat := 2 * length probs + 3.
Definition ext_init (probs : list T) : marks K :=
  {| mh := repeat 0 (ext_markers probs); mp := map (fun i => #(i + 1)) (seq 0 (ext_markers probs));
     md := map (fun f => 1 + two * (#(length probs) + 1) * f) (ext_incs probs) |}.
Definition ext_run (probs : list T) (xs : list T) : outcome (psq K) :=
  psq_run K (ext_markers probs) false 0 (des_inc (ext_incs probs)) (ext_init probs) (units xs).
(** extended_p_square.hpp 231-242: heights[2 * i], i = 1 .. m. *)
Definition ext_result (probs : list T) (s : psq K) : outcome (list T) :=
  all_read (map (fun i => nth_error (mh K (ps_marks K s)) (2 * i)) (seq 1 (length probs))).

(** *** weighted_extended_p_square.hpp 83-94, 176-199.  The reads probabilities[0] and
    probabilities[num_quantiles - 1] are undefined if there are no probabilities. *)
Definition wext_init (probs : list T) : marks K :=
  {| mh := repeat 0 (ext_markers probs); mp := repeat 0 (ext_markers probs); md := repeat 0 (ext_markers probs) |}.
Definition wext_des_at (probs : list T) (W p0 : T) (i : nat) : option T :=
  let m := length probs in
  let n := ext_markers probs in
  let at' f := Some ((W - p0) * f / two + p0) in
  if Nat.eqb i 0 then Some p0
  else if Nat.eqb i (n - 1) then Some W
  else if Nat.eqb i 1 then match nth_error probs 0 with Some q => at' q | None => None end
  else if Nat.eqb i (n - 2) then match nth_error probs (m - 1) with Some q => at' (q + 1) | None => None end
  else if Nat.even i then match nth_error probs (Nat.div2 i - 1) with Some q => Some ((W - p0) * q + p0) | None => None end
  else match nth_error probs (Nat.div2 i - 1), nth_error probs (Nat.div2 i) with
       | Some q, Some q' => at' (q + q')
       | _, _ => None
       end.
Definition wext_des (probs : list T) (W : T) (pos _ : list T) : outcome (list T) :=
  match nth_error pos 0 with
  | Some p0 => all_read (map (wext_des_at probs W p0) (seq 0 (ext_markers probs)))
  | None => UB
  end.
Definition wext_run (probs : list T) (es : list (T * T)) : outcome (psq K) :=
  psq_run K (ext_markers probs) true (ext_markers probs) (wext_des probs) (wext_init probs) es.

(** *** extended_p_square_quantile.hpp 84-186, given the estimates [hs] of extended_p_square *)
Inductive interpolation := Linear | Quadratic.
(** std::lower_bound on the (sorted) probabilities. *)
Fixpoint lower_bound (l : list T) (x : T) : nat :=
  match l with
  | [] => O
  | y :: l => if y <? x then S (lower_bound l x) else O
  end.
Definition linear_at (p0 p1 h0 h1 p : T) : T :=
  let a := (h1 - h0) / (p1 - p0) in
  let b := h1 - p1 * a in
  a * p + b.
Definition quadratic_at (p0 p1 p2 h0 h1 h2 p : T) : T :=
  let hp21 := (h2 - h1) / (p2 - p1) in
  let hp10 := (h1 - h0) / (p1 - p0) in
  let p21 := (p2 * p2 - p1 * p1) / (p2 - p1) in
  let p10 := (p1 * p1 - p0 * p0) / (p1 - p0) in
  let a := (hp21 - hp10) / (p21 - p10) in
  let b := hp21 - a * p21 in
  let c := h2 - a * p2 * p2 - b * p2 in
  a * p * p + b * p + c.
(** *(it - k), *(it + k) around index [d] of [l]. *)
Definition before_at (l : list T) (d k : nat) : option T :=
  if Nat.leb k d then nth_error l (d - k) else None.
Definition three (l : list T) (d0 : option nat) : option (T * T * T) :=
  match d0 with
  | Some d =>
      match nth_error l d, nth_error l (d + 1), nth_error l (d + 2) with
      | Some a, Some b, Some c => Some (a, b, c)
      | _, _, _ => None
      end
  | None => None
  end.
Definition eps_quantile (ip : interpolation) (probs hs : list T) (p : T) : outcome T :=
  let dist := lower_bound probs p in
  match nth_error probs 0, nth_error probs (length probs - 1) with
  | Some first, Some last =>
      if (p <? first) || (last <? p) then NotANumber
      else match nth_error probs dist with
      | None => UB
      | Some q =>
          if keqb K q p then match nth_error hs dist with Some h => Ok h | None => UB end
          else match ip with
          | Linear =>
              match before_at probs dist 1, before_at hs dist 1, nth_error hs dist with
              | Some p0, Some h0, Some h1 => Ok (linear_at p0 q h0 h1 p)
              | _, _, _ => UB
              end
          | Quadratic =>
              match before_at probs dist 1 with
              | None => UB
              | Some p0 =>
                  let upper := (Nat.eqb dist 1 || leb K (q - p) (p - p0)) && negb (Nat.eqb dist (length probs - 1)) in
                  let start := if upper then Some (dist - 1)%nat
                               else if Nat.leb 2 dist then Some (dist - 2)%nat else None in
                  match three probs start, three hs start with
                  | Some (p0, p1, p2), Some (h0, h1, h2) => Ok (quadratic_at p0 p1 p2 h0 h1 h2 p)
                  | _, _ => UB
                  end
              end
          end
      end
  | _, _ => UB
  end.
End Instances.

(** ** Extractions of the cumulative distribution and of the median based on it.
    [pairs] is cd_pairs or wcd_pairs, [push] the operator() of the distribution. *)
Section Extract.
Variable K : Num.
Local Notation T := (car K).
Local Notation "1" := (one K) : num_scope.
Local Notation "x + y" := (add K x y) : num_scope.
Local Notation "x - y" := (sub K x y) : num_scope.
Local Notation "x * y" := (mul K x y) : num_scope.
Local Notation "x / y" := (div K x y) : num_scope.
Local Notation "x <? y" := (ltb K x y) : num_scope.
Local Open Scope num_scope.
Variable pairs : psq K -> list (T * T).
Variable push : psq K -> T -> T -> outcome (psq K).

(** p_square_cumul_dist.hpp 188-204: the cached histogram; 90: the dirty flag. *)
Record cdist := { cs_psq : psq K; cs_hist : list (T * T); cs_dirty : bool }.
Definition cdist_push (s : cdist) (x w : T) : outcome cdist :=
  obnd (push (cs_psq s) x w) (fun q => Ok {| cs_psq := q; cs_hist := cs_hist s; cs_dirty := true |}).
Definition cdist_extract (s : cdist) : cdist :=
  if cs_dirty s then {| cs_psq := cs_psq s; cs_hist := pairs (cs_psq s); cs_dirty := false |} else s.

(** median.hpp 158-179 = weighted_median.hpp 158-179: the first entry not below one half. *)
Fixpoint half_index (h : list (T * T)) : outcome nat :=
  match h with
  | [] => UB
  | b :: h => if snd b <? half K then obnd (half_index h) (fun n => Ok (S n)) else Ok O
  end.
Definition cdmed_value (h : list (T * T)) : outcome T :=
  obnd (half_index h) (fun i =>
    match i with
    | O => UB                                   (* it - 1 before begin() *)
    | S j =>
        match nth_error h i, nth_error h j, nth_error h (S i) with
        | Some (x, y), Some (_, y'), Some (x', _) =>
            let over := (y - half K) / (y - y') in
            Ok (x * over + x' * (1 - over))
        | _, _, _ => UB
        end
    end).
Record cdmed := { cm_dirty : bool; cm_median : option T }.    (* None: uninitialised *)
Inductive cd_op := CPush (x w : T) | CExtract | CMedian.
(** A set with the distribution and the median; the outputs are lists of pairs or numbers. *)
Definition cd_step (o : outcome (cdist * cdmed * list (list (T * T) + T))) (op : cd_op) :
    outcome (cdist * cdmed * list (list (T * T) + T)) :=
  obnd o (fun s =>
    let '(c, m, out) := s in
    match op with
    | CPush x w => obnd (cdist_push c x w) (fun c => Ok (c, {| cm_dirty := true; cm_median := cm_median m |}, out))
    | CExtract => let c' := cdist_extract c in Ok (c', m, out ++ [inl (cs_hist c')])
    | CMedian =>
        if cm_dirty m then
          let c' := cdist_extract c in
          obnd (cdmed_value (cs_hist c')) (fun r => Ok (c', {| cm_dirty := false; cm_median := Some r |}, out ++ [inr r]))
        else match cm_median m with Some r => Ok (c, m, out ++ [inr r]) | None => UB end
    end).
Definition cd_session (q0 : psq K) (h0 : list (T * T)) (ops : list cd_op) :=
  fold_left cd_step ops
    (Ok ({| cs_psq := q0; cs_hist := h0; cs_dirty := true |}, {| cm_dirty := true; cm_median := None |}, [])).
End Extract.
