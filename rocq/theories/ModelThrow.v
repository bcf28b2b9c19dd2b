(** Model of a push that is interrupted by an exception (framework/accumulator_set.hpp 303-378).

    operator() of the set visits the accumulators in turn with fusion::for_each (308-312); there is no try block in
    the library, so an exception thrown by one of them (by the arithmetic, the comparison or the allocation of a
    sample type; the library itself throws only while results are extracted) leaves the set as it is at that moment. *)
From Coq Require Import List Bool.
From Verif Require Import ModelFramework.
Import ListNotations.

(** What can be thrown: [throws t read x s] says whether operator() of the accumulator of tag [t] throws in state [s],
    [torn t read x s] is the state that it then leaves itself in. *)
Record Throwing (L : Lib) (B : Behaviour L) : Type := mkThrowing {
  throws : tag L -> (tag L -> Result L B) -> Sample L B -> State L B -> bool;
  torn : tag L -> (tag L -> Result L B) -> Sample L B -> State L B -> State L B
}.

Section Throw.
Variable L : Lib.
Variable B : Behaviour L.
Variable X : Throwing L B.

(** accumulator_set.hpp 308-378, as [visit] in ModelFramework; the flag says that an exception was thrown.  A dropped
    accumulator is not called (droppable_accumulator.hpp 127-133). *)
Fixpoint try_visit (x : Sample L B) (done todo : accset L B) : accset L B * bool :=
  match todo with
  | [] => (done, false)
  | a :: r =>
      let s := done ++ a :: r in
      if negb (is_dropped L B a) && throws L B X (fst (who L B a)) (read L B s) x (state L B a) then
        (done ++ mkAcc L B (who L B a) (refs L B a) (tripped L B a)
                   (torn L B X (fst (who L B a)) (read L B s) x (state L B a)) :: r, true)
      else try_visit x (done ++ [operate L B s x a]) r
  end.
Definition try_push (s : accset L B) (x : Sample L B) : accset L B * bool := try_visit x [] s.

(** A caller that catches the exceptions and goes on: the set, and for every push whether it threw. *)
Definition try_handle (q : accset L B * list bool) (e : event L B) : accset L B * list bool :=
  match e with
  | Push _ _ x => let r := try_push (fst q) x in (fst r, snd q ++ [snd r])
  | Drop _ _ t => (drop L B t (fst q), snd q)
  end.
Definition try_history (s : accset L B) (es : list (event L B)) : accset L B * list bool :=
  fold_left try_handle es (s, []).
End Throw.
