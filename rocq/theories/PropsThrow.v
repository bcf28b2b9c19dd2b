(** Property theorems C77: what an exception thrown while a sample is pushed leaves behind. *)
From Coq Require Import List Bool ZArith QArith.
From Verif Require Import Num ModelFramework SpecFramework ModelThrow ModelLibrary ModelSets SpecSets ProofFrameworkEx ProofThrowTop.
Import ListNotations.

(** Nothing thrown: an ordinary push. *)
Theorem C77_unthrown : forall L B (X : Throwing L B) s x s', try_push L B X s x = (s', false) -> s' = push L B s x.
Proof. exact not_interrupted. Qed.
Print Assumptions C77_unthrown.

(** In any set of the library, after any history of pushes (interrupted or not) and drops, let the accumulator [t] throw.
    The samples that follow find the set like this, for good: a feature that needs only accumulators before [t] has
    the sample, as if the push had succeeded; a feature that needs only accumulators after [t] never sees it; and if
    the accumulator that throws leaves its own state alone, [t] counts with the latter. *)
Theorem C77_library : forall (B : Behaviour Library), ReadsOnly Library B lconsults lon_push ->
  forall (X : Throwing Library B) enum, Enumeration Library enum -> forall W fs, let ts := make_tuple Library enum W fs in
  Compiles W ts -> NoRollingClash ts ->
  forall es x s', let s := fst (try_history Library B X (construct Library B enum W fs) es) in
  try_push Library B X s x = (s', true) ->
  exists a t b, ts = a ++ t :: b /\
  (exists r st, throws Library B X (fst t) r x st = true) /\
  forall ys u, In u ts ->
    ((forall v, Needs Library ts u v -> In v a) ->
       read Library B (pushes Library B s' ys) (lfeature (fst u)) = read Library B (pushes Library B (push Library B s x) ys) (lfeature (fst u))) /\
    ((forall v, Needs Library ts u v -> In v b) ->
       read Library B (pushes Library B s' ys) (lfeature (fst u)) = read Library B (pushes Library B s ys) (lfeature (fst u))) /\
    ((forall r y st, torn Library B X (fst t) r y st = st) -> (forall v, Needs Library ts u v -> In v (t :: b)) ->
       read Library B (pushes Library B s' ys) (lfeature (fst u)) = read Library B (pushes Library B s ys) (lfeature (fst u))).
Proof. exact library_interrupted. Qed.
Print Assumptions C77_library.
(** The same for any library of features. *)
Theorem C77_generic : forall L, LibLaws L -> forall (B : Behaviour L) consults on_push, ReadsOnly L B consults on_push ->
  forall (X : Throwing L B) enum, Enumeration L enum -> forall W fs, let ts := make_tuple L enum W fs in
  Supplied L consults ts -> PushOrdered L on_push ts ->
  forall es x s', let s := fst (try_history L B X (construct L B enum W fs) es) in
  try_push L B X s x = (s', true) ->
  exists a t b, ts = a ++ t :: b /\
  (exists r st, throws L B X (fst t) r x st = true) /\
  forall ys u, In u ts ->
    ((forall v, Needs L ts u v -> In v a) -> read L B (pushes L B s' ys) (ffeature L u) = read L B (pushes L B (push L B s x) ys) (ffeature L u)) /\
    ((forall v, Needs L ts u v -> In v b) -> read L B (pushes L B s' ys) (ffeature L u) = read L B (pushes L B s ys) (ffeature L u)) /\
    ((forall r y st, torn L B X (fst t) r y st = st) -> (forall v, Needs L ts u v -> In v (t :: b)) ->
       read L B (pushes L B s' ys) (ffeature L u) = read L B (pushes L B s ys) (ffeature L u)).
Proof. exact generic_interrupted. Qed.
Print Assumptions C77_generic.
Example C77_library_ex : let ts := make_tuple Library in_order false mean_fs in let s := fst (tried [4]%Z) in
  Compiles false ts /\ NoRollingClash ts /\ ReadsOnly Library ExB lconsults lon_push /\ snd (try_push Library ExB overflowing s (sm 1000)) = true /\
  (exists a b, ts = a ++ (t_sum, false) :: b /\ (forall v, Needs Library ts (t_count, false) v -> In v a) /\ (forall v, Needs Library ts (t_max, false) v -> In v b) /\
    Needs Library ts (t_mean, false) (t_count, false) /\ Needs Library ts (t_mean, false) (t_sum, false)).
Proof. exact torn_set. Qed.

(** The number of samples that count reports lies between the number of pushes that succeeded and the number of pushes. *)
Theorem C77_count : forall (K : Num) (sqrt : car K -> car K) (R : Rest K), let B := BasicSets K sqrt R in
  forall (X : Throwing Library B), (forall r y st, throws Library B X t_count r y st = false) ->
  forall enum, Enumeration Library enum -> forall W fs, In (t_count, false) (make_tuple Library enum W fs) ->
  forall es, let q := try_history Library B X (construct Library B enum W fs) es in
  exists n, read Library B (fst q) t_count = VNat n /\ (length (filter negb (snd q)) <= n <= length (snd q))%nat.
Proof. exact counted. Qed.
Print Assumptions C77_count.

(** Finding: the push is not undone.  A set with a mean whose sum throws when it is given a sample above 100 (and leaves
    the sum as it was): after 4 and 1000 the mean is neither 4 nor 502 but 2, and after 5 and 6 it is not 5 but 15/4. *)
Theorem C77_undone_refuted : make_tuple Library in_order false mean_fs = [(t_count, false); (t_sum, false); (t_mean, false); (t_max, false)] /\
  snd (tried [4; 1000]%Z) = [false; true] /\
  shown (read Library ExB (fst (tried [4]%Z)) t_mean) = Some (4 # 1)%Q /\
  shown (read Library ExB (fst (tried [4; 1000]%Z)) t_mean) = Some (2 # 1)%Q /\
  shown (read Library ExB (push Library ExB (fst (tried [4]%Z)) (sm 1000)) t_mean) = Some (502 # 1)%Q /\
  shown (read Library ExB (fst (tried [4; 1000; 5; 6]%Z)) t_mean) = Some (15 # 4)%Q.
Proof. exact torn_mean. Qed.
Print Assumptions C77_undone_refuted.
