(** Extraction from a set as the code performs it: result() may change mutable members of its
    accumulator, and so may the results it extracts on the way.

    ModelFramework.extract gives the value that an extraction returns; here is the set it leaves
    behind.  The caches are those of density.hpp 169-187, weighted_density.hpp 155-174,
    p_square_cumul_dist.hpp 188-204, weighted_p_square_cumul_dist.hpp 204-220, median.hpp 88-110 and
    158-179, weighted_median.hpp 86-108 and 155-176, tail.hpp 205-222 and
    (weighted_)peaks_over_threshold.hpp.  Two mutable members are left out, because result() assigns
    them before it uses them: tail_means_ (tail_variate_means.hpp 158, weighted_tail_variate_means.hpp
    191) and probability (extended_p_square_quantile.hpp 203). *)

From Coq Require Import List ZArith Bool.
From Verif Require Import Num ModelRolling ModelDensity ModelPSquare ModelTail ModelPot.
From Verif Require Import ModelFramework ModelLibrary ModelSets ModelRollingSets ModelWhole.
Import ListNotations.

(** ** Any library *)
Section Observe.
Variable L : Lib.
Variable B : Behaviour L.
(** [asks t s]: the features that result() of the accumulator of [t] in state [s] extracts. *)
Variable asks : tag L -> State L B -> list (tag L).
(** [look t read s]: what result() leaves behind. *)
Variable look : tag L -> (tag L -> Result L B) -> State L B -> State L B.

(** The accumulator of feature [f] changes its mutable members. *)
Definition put (f : tag L) (st : State L B) (s : accset L B) : accset L B :=
  map (fun a => if tag_eqb L f (ffeature L (who L B a))
                then mkAcc L B (who L B a) (refs L B a) (tripped L B a) st else a) s.

(** accumulator_set::extract, accumulator_set.hpp 393-420: the set after result() of the accumulator
    of [f], which extracts other features first.  A dropped accumulator can be extracted, too. *)
Fixpoint observe (n : nat) (f : tag L) (s : accset L B) : accset L B :=
  match n, find L B s f with
  | S n', Some a =>
      let s1 := fold_left (fun q g => observe n' (feature L g) q) (asks (fst (who L B a)) (state L B a)) s in
      match find L B s1 f with
      | Some b => put f (look (fst (who L B b)) (read L B s1) (state L B b)) s1
      | None => s1
      end
  | _, _ => s
  end.
Definition extracted (f : tag L) (s : accset L B) : accset L B := observe (S (depth L f)) f s.

(** What a user does with a set: samples, drops and extractions in any order. *)
Inductive use : Type :=
| Event : event L B -> use
| Extract : tag L -> use.
Definition apply_use (s : accset L B) (u : use) : accset L B :=
  match u with
  | Event e => handle L B s e
  | Extract f => extracted f s
  end.
Definition uses (s : accset L B) (us : list use) : accset L B := fold_left apply_use us s.
End Observe.

(** ** The library *)

(** The accumulators that keep their result until the next sample in members that ModelWhole leaves
    out: p_square_cumul_dist.hpp 230-231 (histogram, is_dirty), weighted_p_square_cumul_dist.hpp
    242-243, median.hpp 188-189 (is_dirty, median), weighted_median.hpp 184-185. *)
Definition memo (t : ltag) : bool :=
  match t with
  | t_p_square_cumulative_distribution | t_weighted_p_square_cumulative_distribution
  | t_with_p_square_cumulative_distribution_median
  | t_with_p_square_cumulative_distribution_weighted_median => true
  | _ => false
  end.

(** Their states: the rest, the kept result, is_dirty.  What the members hold before the first
    extraction is not modelled ([NNone]); is_dirty is true then. *)
Inductive mcell (K : Num) : Type :=
| Plain (c : wcell K)
| Memo (c : wcell K) (v : note K) (dirty : bool).
Arguments Plain {K} _.
Arguments Memo {K} _ _ _.

Section Caches.
Variable K : Num.
Variable A : Args K.
Local Notation T := (car K).
Local Notation value := (value K (note K)).
Local Notation H := (a_heap K A).
Local Notation ceil := (a_ceil K A).
Local Notation pw := (a_pow K A).

Definition minit (t : ltag) : mcell K :=
  if memo t then Memo (winit K A t) NNone true else Plain (winit K A t).
(** operator() sets is_dirty: p_square_cumul_dist.hpp 88, median.hpp 155. *)
Definition mstep (t : ltag) (r : ltag -> value) (p : pack K) (s : mcell K) : mcell K :=
  match s with
  | Plain c => Plain (wstep K A t r p c)
  | Memo c v _ => Memo (wstep K A t r p c) v true
  end.
Definition mresult (t : ltag) (r : ltag -> value) (s : mcell K) : note K :=
  match s with
  | Plain c => wresult K A t r c
  | Memo c v dirty => if dirty then wresult K A t r c else v
  end.
Definition MemoRest : Rest K := mkRest K (mcell K) (note K) minit mstep mresult.
(** The library with these members. *)
Definition MemoSets (sqrt : T -> T) : Behaviour Library := BasicSets K sqrt MemoRest.

(** The members that the other accumulators change in result(). *)
Definition wlook (t : ltag) (r : ltag -> value) (s : wcell K) : wcell K :=
  let cnt := wcount K (r t_count) in
  let W := wsum K (r t_sum_of_weights) in
  let tl := wtail K (r t_abstract_tail) in
  let tw := wlist K (r t_abstract_tail_weights) in
  match t, s with
  | t_density, WDens o =>
      WDens (obnd o (fun d => Ok (dens_extract K T (fun n _ => ofnat K n) (dens_now K cnt (de_wsum K T d) d))))
  | t_weighted_density, WWDens o =>
      WWDens (obnd o (fun d => Ok (dens_extract K (T * T) (fun _ w => w) (dens_now K (de_count K (T * T) d) W d))))
  | t_with_density_median, WMed m | t_with_density_weighted_median, WMed m =>
      match obnd (whist K (r t_density)) (dmed_result K m cnt) with
      | Ok q => WMed (fst q)
      | _ => WMed m
      end
  | t_tail sd, WTail o => WTail (obnd o (fun st => Ok (tail_sort H (tail_pred K (lr_of sd)) st)))
  | t_peaks_over_threshold sd, WPot q => WPot (pot_extract K pw (lr_of sd) q cnt)
  | t_weighted_peaks_over_threshold sd, WWPot q => WWPot (wpot_extract K pw (lr_of sd) q W)
  | t_peaks_over_threshold_prob sd, WPPot q =>
      match obnd tl (ppot_extract K pw (lr_of sd) ceil q cnt) with
      | Ok o => WPPot (fst o)
      | _ => WPPot q
      end
  | t_weighted_peaks_over_threshold_prob sd, WPPot q =>
      match obnd tl (fun tl => obnd tw (wppot_extract K pw (lr_of sd) q W tl)) with
      | Ok o => WPPot (fst o)
      | _ => WPPot q
      end
  | _, _ => s
  end.
Definition mlook (t : ltag) (r : ltag -> value) (s : mcell K) : mcell K :=
  match s with
  | Plain c => Plain (wlook t r c)
  | Memo c v dirty => Memo c (if dirty then wresult K A t r c else v) false
  end.
(** The basic accumulators have no mutable members. *)
Definition blook (t : ltag) (r : ltag -> value) (s : cell K (mcell K)) : cell K (mcell K) :=
  match s with
  | CRest m => if basic t then s else CRest (mlook t r m)
  | _ => s
  end.

(** Is the result kept from an earlier extraction?  Then nothing is extracted. *)
Definition clean (s : cell K (mcell K)) : bool :=
  match s with
  | CRest (Memo _ _ dirty) => negb dirty
  | CRest (Plain (WDens (Ok d))) => negb (de_dirty K T d)
  | CRest (Plain (WWDens (Ok d))) => negb (de_dirty K (T * T) d)
  | CRest (Plain (WMed m)) => negb (dm_dirty K m)
  | CRest (Plain (WPot q)) => negb (po_dirty K q)
  | CRest (Plain (WWPot q)) => negb (wo_dirty K q)
  | CRest (Plain (WPPot q)) => negb (pp_dirty K q)
  | _ => false
  end.
(** Otherwise whatever the accumulator consults in result() ([lshows]: at most these). *)
Definition basks (t : ltag) (s : cell K (mcell K)) : list ltag := if clean s then [] else lshows t.

Definition library_uses (sqrt : T -> T) := uses Library (MemoSets sqrt) basks blook.
End Caches.
