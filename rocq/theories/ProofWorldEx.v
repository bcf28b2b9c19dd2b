(** Examples for C78: sets of rationals, copied, assigned, referring to each other. *)
From Coq Require Import List ZArith QArith Qcanon Bool Arith Lia.
From Verif Require Import Num NumFacts ModelFramework SpecFramework ModelLibrary ModelSets SpecSets ProofFrameworkEx.
From Verif Require Import ModelExternal ProofExternal2 ModelWorld SpecWorld ProofWorld.
Import ListNotations.

Definition give (i : nat) (x : pack QcN) : statement Library ExB := @PushTo Library ExB i x.
Definition ran (es : list (statement Library ExB)) : outcome (world Library ExB weight_accumulator) :=
  execute Library ExB weight_accumulator in_order es (Ok []).
Definition says (es : list (statement Library ExB)) (i : nat) (f : ltag) : outcome (option Q) :=
  match ran es with
  | Ok w => match answer Library ExB weight_accumulator w i f with Ok r => Ok (shown r) | NotANumber => NotANumber | UB => UB end
  | _ => UB
  end.
(** Object 0 collects weights, object 1 refers to it; 2 is a copy of 0 and 3 a copy of 1. *)
Definition pair_of_sets : list (statement Library ExB) :=
  [Create true wfs; CreateReferring true lazy_fs 0; give 0 (wp 10 2); give 1 (wp 10 2)].
Definition both_copied : list (statement Library ExB) := pair_of_sets ++ [CopyOf 0; CopyOf 1].
Definition more_for_copies : list (statement Library ExB) := [give 2 (wp 6 3); give 3 (wp 6 3)].
Lemma pair_works : says (pair_of_sets ++ [give 0 (wp 6 3); give 1 (wp 6 3)]) 1 t_mean = Ok (Some (38 # 5)%Q).
Proof. vm_compute; reflexivity. Qed.
Lemma copies_apart :
  says (both_copied ++ more_for_copies) 2 t_sum_of_weights = Ok (Some (5 # 1)%Q) /\
  says (both_copied ++ more_for_copies) 3 t_sum_of_weights = Ok (Some (2 # 1)%Q) /\
  says (both_copied ++ more_for_copies) 3 t_mean = Ok (Some (19 # 1)%Q) /\
  says (both_copied ++ more_for_copies) 1 t_mean = Ok (Some (10 # 1)%Q).
Proof. vm_compute; repeat split; reflexivity. Qed.
(** Once the first set is gone, so are the answers of the copy of the second, although the copy of the first is alive. *)
Lemma copy_dangles : says (both_copied ++ more_for_copies ++ [Destroy 0]) 3 t_mean = UB /\
  says (both_copied ++ more_for_copies ++ [Destroy 0]) 2 t_sum_of_weights = Ok (Some (5 # 1)%Q).
Proof. vm_compute; split; reflexivity. Qed.
Lemma copies_apart_all :
  says (pair_of_sets ++ [give 0 (wp 6 3); give 1 (wp 6 3)]) 1 t_mean = Ok (Some (38 # 5)%Q) /\
  says (both_copied ++ more_for_copies) 2 t_sum_of_weights = Ok (Some (5 # 1)%Q) /\
  says (both_copied ++ more_for_copies) 3 t_sum_of_weights = Ok (Some (2 # 1)%Q) /\
  says (both_copied ++ more_for_copies) 3 t_mean = Ok (Some (19 # 1)%Q) /\
  says (both_copied ++ more_for_copies ++ [Destroy 0]) 3 t_mean = UB.
Proof.
  exact (conj pair_works (conj (proj1 copies_apart) (conj (proj1 (proj2 copies_apart))
    (conj (proj1 (proj2 (proj2 copies_apart))) (proj1 copy_dangles))))).
Qed.

(** A plain set with a life of pushes, a drop, a copy and an assignment. *)
Definition lived : list (statement Library ExB) :=
  [Create false [plain t_mean]; Create false [plain t_mean]; give 0 (sm 4); CopyOf 0; give 0 (sm 8); give 2 (sm 1);
   AssignTo 1 2; give 1 (sm 4)].
Lemma lived_ex :
  life_of Library ExB 1 (rev lived) = Some (mkLife Library ExB false [plain t_mean] None
     [Push Library ExB (sm 4); Push Library ExB (sm 1); Push Library ExB (sm 4)]) /\
  life_of Library ExB 3 (rev lived) = None /\
  says lived 0 t_mean = Ok (Some (6 # 1)%Q) /\ says lived 1 t_mean = Ok (Some (3 # 1)%Q) /\ says lived 2 t_mean = Ok (Some (5 # 2)%Q).
Proof. split; [reflexivity |]; split; [reflexivity |]; vm_compute; repeat split; reflexivity. Qed.

Lemma copied_ex : match ran both_copied with Ok w =>
    match execute Library ExB weight_accumulator in_order [give 3 (wp 6 3)] (Ok w),
          execute Library ExB weight_accumulator in_order (map (instead Library ExB 1) [give 3 (wp 6 3)]) (Ok w) with
    | Ok _, Ok _ => true | _, _ => false end | _ => false end = true /\
  objects Library ExB (pair_of_sets ++ [CopyOf 0]) = 3%nat /\
  (forall e, In e [give 3 (wp 6 3)] -> OnlyTouches Library ExB 3 e) /\
  says (both_copied ++ [give 3 (wp 6 3)]) 3 t_mean = Ok (Some (19 # 1)%Q) /\
  says (both_copied ++ [give 1 (wp 6 3)]) 1 t_mean = Ok (Some (19 # 1)%Q).
Proof.
  split; [vm_compute; reflexivity |]; split; [reflexivity |]; split; [intros e [<- | []]; reflexivity |].
  vm_compute; split; reflexivity.
Qed.
Lemma refers_ex : exists l l2, life_of Library ExB 3 (rev (both_copied ++ more_for_copies)) = Some l /\ referent Library ExB l = Some 0%nat /\
  life_of Library ExB 0 (rev (both_copied ++ more_for_copies)) = Some l2 /\ referent Library ExB l2 = None /\
  In (t_sum_of_weights, false) (make_tuple Library in_order (weighted Library ExB l) (features Library ExB l)) /\
  weight_accumulator t_sum_of_weights = true.
Proof.
  eexists; eexists; split; [reflexivity |]; split; [reflexivity |]; split; [reflexivity |]; split; [reflexivity |]; split; [| reflexivity].
  cbn [weighted features]; rewrite lazy_tuple; cbn; tauto.
Qed.
Lemma untouched_ex : exists w w', ran pair_of_sets = Ok w /\
  execute Library ExB weight_accumulator in_order ([CopyOf 0; CopyOf 1] ++ more_for_copies) (Ok w) = Ok w' /\
  (forall e, In e ([CopyOf 0; CopyOf 1] ++ more_for_copies) -> ~ Touches Library ExB 1 e) /\
  (forall s a, object_at Library ExB weight_accumulator w 1 = Some (Referring s a) -> (a < length w)%nat /\
     forall e, In e ([CopyOf 0; CopyOf 1] ++ more_for_copies) -> ~ Touches Library ExB a e) /\ (1 < length w)%nat.
Proof.
  eexists; eexists; split; [reflexivity |]; split; [reflexivity |].
  split; [intros e [<- | [<- | [<- | [<- | []]]]]; cbn; try tauto; discriminate |].
  split; [| cbn; lia].
  intros s a H; cbn in H; injection H as _ <-; split; [cbn; lia |].
  intros e [<- | [<- | [<- | [<- | []]]]]; cbn; try tauto; discriminate.
Qed.
