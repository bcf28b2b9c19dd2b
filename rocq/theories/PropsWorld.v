(** C78: programs with several sets, copies of sets, sets that refer to other sets. *)
From Coq Require Import List ZArith QArith Qcanon Bool.
From Verif Require Import Num ModelFramework SpecFramework ModelLibrary ModelSets SpecSets ModelExternal ModelWorld SpecWorld.
From Verif Require Import ProofFrameworkEx ProofExternal2 ProofWorld ProofWorldEx.
Import ListNotations.

(** In any program, a set with accumulators of its own answers for its own life and nothing else: what was pushed and
    dropped since it was made, or, if it is a copy or was assigned to, in the life of the original up to then and since. *)
Theorem C78_life : forall L B ext enum es w k l,
  execute L B ext enum es (Ok []) = Ok w -> life_of L B k (rev es) = Some l -> referent L B l = None ->
  forall f, answer L B ext w k f =
    Ok (read L B (history L B (construct L B enum (weighted L B l) (features L B l)) (events L B l)) f).
Proof. exact own_life. Qed.
Print Assumptions C78_life.
Example C78_life_ex :
  life_of Library ExB 1 (rev lived) = Some (mkLife Library ExB false [plain t_mean] None
     [Push Library ExB (sm 4); Push Library ExB (sm 1); Push Library ExB (sm 4)]) /\
  life_of Library ExB 3 (rev lived) = None /\
  says lived 0 t_mean = Ok (Some (6 # 1)%Q) /\ says lived 1 t_mean = Ok (Some (3 # 1)%Q) /\ says lived 2 t_mean = Ok (Some (5 # 2)%Q).
Proof. exact lived_ex. Qed.
(** A set that has not been made, or no longer exists, has no answers. *)
Theorem C78_no_life : forall L B ext enum es w k,
  execute L B ext enum es (Ok []) = Ok w -> life_of L B k (rev es) = None -> forall f, answer L B ext w k f = UB.
Proof. exact no_life. Qed.
Print Assumptions C78_no_life.

(** Statements that do not act on a set do not change its answers, nor do copies made of it, provided that they do not
    act on the set that it refers to either. *)
Theorem C78_untouched : forall L B ext enum es w w' k,
  execute L B ext enum es (Ok w) = Ok w' -> (forall e, In e es -> ~ Touches L B k e) ->
  (forall s a, object_at L B ext w k = Some (Referring s a) -> (a < length w)%nat /\ forall e, In e es -> ~ Touches L B a e) ->
  (k < length w)%nat -> forall f, answer L B ext w' k f = answer L B ext w k f.
Proof. exact untouched. Qed.
Print Assumptions C78_untouched.
Example C78_untouched_ex : exists w w', ran pair_of_sets = Ok w /\
  execute Library ExB weight_accumulator in_order ([CopyOf 0; CopyOf 1] ++ more_for_copies) (Ok w) = Ok w' /\
  (forall e, In e ([CopyOf 0; CopyOf 1] ++ more_for_copies) -> ~ Touches Library ExB 1 e) /\
  (forall s a, object_at Library ExB weight_accumulator w 1 = Some (Referring s a) -> (a < length w)%nat /\
     forall e, In e ([CopyOf 0; CopyOf 1] ++ more_for_copies) -> ~ Touches Library ExB a e) /\ (1 < length w)%nat.
Proof. exact untouched_ex. Qed.

(** A copy goes on as the original would have, without the original noticing, and the other way round: whatever is
    pushed and dropped in the copy gives the answers that it would give in the original. *)
Theorem C78_copy : forall L B ext enum es i w,
  execute L B ext enum (es ++ [CopyOf i]) (Ok []) = Ok w -> let k := objects L B es in
  forall ps w1 w2, (forall e, In e ps -> OnlyTouches L B k e) ->
  execute L B ext enum ps (Ok w) = Ok w1 -> execute L B ext enum (map (instead L B i) ps) (Ok w) = Ok w2 ->
  forall f, answer L B ext w1 k f = answer L B ext w2 i f /\
            answer L B ext w1 i f = answer L B ext w i f /\ answer L B ext w2 k f = answer L B ext w k f.
Proof. exact copied. Qed.
Print Assumptions C78_copy.
Example C78_copy_ex : match ran both_copied with Ok w =>
    match execute Library ExB weight_accumulator in_order [give 3 (wp 6 3)] (Ok w),
          execute Library ExB weight_accumulator in_order (map (instead Library ExB 1) [give 3 (wp 6 3)]) (Ok w) with
    | Ok _, Ok _ => true | _, _ => false end | _ => false end = true /\
  objects Library ExB (pair_of_sets ++ [CopyOf 0]) = 3%nat /\
  (forall e, In e [give 3 (wp 6 3)] -> OnlyTouches Library ExB 3 e) /\
  says (both_copied ++ [give 3 (wp 6 3)]) 3 t_mean = Ok (Some (19 # 1)%Q) /\
  says (both_copied ++ [give 1 (wp 6 3)]) 1 t_mean = Ok (Some (19 # 1)%Q).
Proof. exact copied_ex. Qed.
(** The same after an assignment. *)
Theorem C78_assignment : forall L B ext enum es i j w, i <> j ->
  execute L B ext enum (es ++ [AssignTo i j]) (Ok []) = Ok w ->
  forall ps w1 w2, (forall e, In e ps -> OnlyTouches L B i e) ->
  execute L B ext enum ps (Ok w) = Ok w1 -> execute L B ext enum (map (instead L B j) ps) (Ok w) = Ok w2 ->
  forall f, answer L B ext w1 i f = answer L B ext w2 j f /\
            answer L B ext w1 j f = answer L B ext w j f /\ answer L B ext w2 i f = answer L B ext w i f.
Proof. exact assigned. Qed.
Print Assumptions C78_assignment.

(** External features are those of the set that the first of the copies was made to refer to. *)
Theorem C78_refers : forall L B ext enum, LibLaws L -> Enumeration L enum ->
  forall es w k l a l2, execute L B ext enum es (Ok []) = Ok w ->
  life_of L B k (rev es) = Some l -> referent L B l = Some a -> life_of L B a (rev es) = Some l2 -> referent L B l2 = None ->
  forall t, In t (make_tuple L enum (weighted L B l) (features L B l)) -> ext (fst t) = true ->
  answer L B ext w k (ffeature L t) = answer L B ext w a (ffeature L t).
Proof. exact refers. Qed.
Print Assumptions C78_refers.
Example C78_refers_ex : exists l l2, life_of Library ExB 3 (rev (both_copied ++ more_for_copies)) = Some l /\ referent Library ExB l = Some 0%nat /\
  life_of Library ExB 0 (rev (both_copied ++ more_for_copies)) = Some l2 /\ referent Library ExB l2 = None /\
  In (t_sum_of_weights, false) (make_tuple Library in_order (weighted Library ExB l) (features Library ExB l)) /\
  weight_accumulator t_sum_of_weights = true.
Proof. exact refers_ex. Qed.

(** Finding: a pair of sets, one referring to the other, cannot be copied by copying both.  The mean of 10 and 6 with
    the weights 2 and 3 is 38/5 in the pair; in the pair of copies, given 6 with weight 3, it is 19, for the copy still
    takes its weights from the original; and when the original goes, the copy's answers are undefined. *)
Theorem C78_together_refuted :
  says (pair_of_sets ++ [give 0 (wp 6 3); give 1 (wp 6 3)]) 1 t_mean = Ok (Some (38 # 5)%Q) /\
  says (both_copied ++ more_for_copies) 2 t_sum_of_weights = Ok (Some (5 # 1)%Q) /\
  says (both_copied ++ more_for_copies) 3 t_sum_of_weights = Ok (Some (2 # 1)%Q) /\
  says (both_copied ++ more_for_copies) 3 t_mean = Ok (Some (19 # 1)%Q) /\
  says (both_copied ++ more_for_copies ++ [Destroy 0]) 3 t_mean = UB.
Proof. exact copies_apart_all. Qed.
Print Assumptions C78_together_refuted.
