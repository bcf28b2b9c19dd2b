(** Calls with named arguments: examples. *)
From Coq Require Import List Bool Arith ZArith QArith Qcanon Lia.
From Verif Require Import Num ModelBasic ModelPSquare ModelTail ModelFramework SpecFramework ModelLibrary ModelSets ModelRollingSets ModelWhole ModelArgs SpecArgs.
From Verif Require Import ProofOrder ProofTailTop ProofPotReal ProofFramework ProofFrameworkEx ProofWholeEx ProofArgs ProofArgs2 ProofArgs3 ProofArgs4.
Import ListNotations.

Definition ex_platform : Platform QcN := mkPlatform QcN (qz (-1000)) (qz 1000) sorting_heap Qc_ceil (fun x _ => x) (fun x => x).
Definition arg (z : Z) : argument QcN := Scalar (K := QcN) (qz z).
Definition fs86 : list (request Library) := [plain t_sum; plain t_count; plain (t_tail_quantile on_right)].
Definition ts86 : list (ftag Library) := Eval vm_compute in make_tuple Library in_order true fs86.
Lemma tuple86 : make_tuple Library in_order true fs86 = ts86.
Proof. vm_compute; reflexivity. Qed.

Definition seen (o : option (answer QcN)) : option Q :=
  match o with
  | Some (Plain (VNum a)) => Some (this a)
  | Some (Plain (VNat n)) => Some (Z.of_nat n # 1)
  | Some (Number (Ok a)) => Some (this a)
  | _ => None
  end.
Definition run86 c ds f q : option (answer QcN) := session QcN ex_platform in_order true fs86 c ds f q.

Definition c86 : list (actual QcN) := [Named (k_cache_size on_right) (Size 3)].
Definition c86' : list (actual QcN) := [Named (k_other 1) (arg 9); Named (k_cache_size on_right) (Size 3); Named k_window_size (Size 7)].
Definition ds86 : list (deed QcN) :=
  [Call [Positional (arg 2); Named k_weight (arg 3)]; Call [Positional (arg 5); Named k_weight (arg 1)]; Let_go t_count].
(** The same, the other way round; ... and with something that nobody looks up. *)
Definition ds86' : list (deed QcN) :=
  [Call [Named k_weight (arg 3); Named k_sample (arg 2)]; Call [Named k_weight (arg 1); Named k_sample (arg 5)]; Let_go t_count].
Definition ds86'' : list (deed QcN) :=
  [Call [Positional (arg 2); Named (k_variate 0) (arg 8); Named k_weight (arg 3)];
   Call [Named (k_other 4) (arg 8); Named k_weight (arg 1); Named k_sample (arg 5)]; Let_go t_count].
Definition q86 : list (actual QcN) := [Named k_quantile_probability (Scalar (K := QcN) (Q2Qc (9 # 10)))].
Definition q86' : list (actual QcN) := [Named (k_other 0) (arg 1); Named k_quantile_probability (Scalar (K := QcN) (Q2Qc (9 # 10)))].

Lemma sums86 : map (fun ds => seen (run86 c86 ds t_sum [])) [ds86; ds86'; ds86''] = [Some (11 # 1); Some (11 # 1); Some (11 # 1)]%Q.
Proof. vm_compute; reflexivity. Qed.
Lemma tails86 : map (fun ds => seen (run86 c86 ds (t_quantile) q86)) [ds86; ds86'; ds86''] = [Some (5 # 1); Some (5 # 1); Some (5 # 1)]%Q.
Proof. vm_compute; reflexivity. Qed.

(** What does not compile: no weight; a second argument without a name; a keyword twice; no cache size; the cache size of
    the other tail; a tail quantile without a probability; a feature that the set does not have. *)
Definition fails {X : Type} (o : option X) : bool := match o with None => true | Some _ => false end.
Lemma rejected86 : map fails
  [run86 c86 [Call [Positional (arg 2)]] t_sum [];
   run86 c86 [Call [Positional (arg 2); Positional (arg 3)]] t_sum [];
   run86 c86 [Call [Positional (arg 2); Named k_weight (arg 3); Named k_sample (arg 4)]] t_sum [];
   run86 [] ds86 t_sum []; run86 [Named (k_cache_size on_left) (Size 3)] ds86 t_sum [];
   run86 c86 ds86 t_quantile []; run86 c86 ds86 t_max []] = repeat true 7.
Proof. vm_compute. reflexivity. Qed.

Ltac legally := eapply args_legal; reflexivity.
Ltac completely U := eapply there_iff; [exact U | reflexivity | reflexivity].

Lemma legal86 : legal QcN c86 /\ legal QcN c86' /\ legal QcN q86 /\ legal QcN q86' /\ legal QcN [].
Proof. split; [legally | split; [legally | split; [legally | split; legally]]]. Qed.
Lemma typed86 : complete QcN ctor_needs ts86 c86 /\ well_typed QcN ctor_takes ts86 c86 /\ unbiased QcN c86.
Proof.
  split; [completely ctor_usual |]. assert (E : arguments QcN c86 = Some [(k_accumulator, This); (k_cache_size on_right, Size 3)]) by reflexivity. split.
  - apply (fit_iff QcN _ _ _ _ takes_usual E). vm_compute; reflexivity.
  - now apply (biased_iff QcN _ _ E).
Qed.
Lemma fine86 : Forall (fine QcN ts86) ds86 /\ Forall (fine QcN ts86) ds86' /\ Forall (fine QcN ts86) ds86''.
Proof.
  assert (X : forall l d, fine QcN ts86 d -> Forall (fine QcN ts86) l -> Forall (fine QcN ts86) (d :: l)) by (intros; now constructor).
  split; [| split]; repeat (apply X; [first [exact I | split; [legally | completely op_usual]] |]); constructor.
Qed.

Lemma swapped : forall x w : argument QcN, rewritten QcN (Call [Positional x; Named k_weight w]) (Call [Named k_weight w; Named k_sample x]).
Proof.
  intros x w. split; [legally | split; [legally |]]. intros k v. unfold given. cbn. split.
  - intros [[H|[H|[]]]|(-> & r & H)]; [discriminate H | now left; left | injection H as -> _; left; right; now left].
  - intros [[H|[H|[]]]|(-> & r & H)]; [now left; right; left | injection H as <- <-; right; split; [reflexivity | now eexists] | discriminate H].
Qed.
Lemma rewritten86 : Forall2 (rewritten QcN) ds86 ds86'.
Proof. repeat (apply Forall2_cons; [first [reflexivity | apply swapped] |]); apply Forall2_nil. Qed.

(** Only the sample and the weight are looked up. *)
Lemma wanted86 : forall k kd, wanted op_needs ts86 k kd -> k = k_sample \/ k = k_weight.
Proof. intros k kd (t & Ht & H). unfold ts86 in Ht. cbn in Ht. repeat destruct Ht as [<-|Ht]; try contradiction; cbn in H; intuition congruence. Qed.
Lemma takes86 : forall k kd, wanted ctor_takes ts86 k kd -> k = k_cache_size on_right.
Proof. intros k kd (t & Ht & H). unfold ts86 in Ht. cbn in Ht. repeat destruct Ht as [<-|Ht]; try contradiction; cbn in H; intuition congruence. Qed.
Lemma alike86 : Forall2 (alike_for QcN (fun k => exists kd, wanted op_needs ts86 k kd)) ds86 ds86''.
Proof.
  assert (X : forall a b x w : argument QcN, alike_for QcN (fun k => exists kd, wanted op_needs ts86 k kd)
    (Call [Positional x; Named k_weight w]) (Call [Positional x; Named (k_variate 0) a; Named k_weight w]) /\
    alike_for QcN (fun k => exists kd, wanted op_needs ts86 k kd)
    (Call [Positional x; Named k_weight w]) (Call [Named (k_other 4) b; Named k_weight w; Named k_sample x])).
  { intros a b x w. split; intros k v (kd & Hw); apply wanted86 in Hw; unfold given; cbn; split.
    - intros [[H|[H|[]]]|H]; [discriminate H | left; tauto | destruct H as (-> & r & H); injection H as -> _; right; split; [reflexivity | now eexists]].
    - intros [[H|[H|[H|[]]]]|H]; [discriminate H | injection H as <- <-; intuition discriminate | left; tauto |
        destruct H as (-> & r & H); injection H as -> _; right; split; [reflexivity | now eexists]].
    - intros [[H|[H|[]]]|H]; [discriminate H | left; tauto | destruct H as (-> & r & H); injection H as -> _; left; tauto].
    - intros [[H|[H|[H|[]]]]|H]; [injection H as <- <-; intuition discriminate | left; tauto | injection H as <- <-; right; split; [reflexivity | now eexists] |
        destruct H as (_ & r & H); discriminate H]. }
  repeat (apply Forall2_cons; [first [reflexivity | apply (X (arg 8) (arg 8))] |]); apply Forall2_nil.
Qed.
Lemma set_alike86 : same_for QcN (fun k => exists kd, wanted ctor_takes ts86 k kd) c86 c86' /\ same_for QcN (eq k_quantile_probability) q86 q86'.
Proof.
  assert (Y : forall (p a : argument QcN), same_for QcN (eq k_quantile_probability) [Named k_quantile_probability p] [Named (k_other 0) a; Named k_quantile_probability p]).
  { intros p a k v <-. unfold given; cbn. split; [intros [[H|[]]|(H & _)]; [tauto | discriminate H] | intros [[H|[H|[]]]|(H & _)]; [discriminate H | tauto | discriminate H]]. }
  split; [| apply Y]. intros k v (kd & Hw). apply takes86 in Hw. subst k. unfold c86, c86'. generalize (arg 9). intros a. unfold given; cbn. split.
  - intros [[H|[]]|(H & _)]; [tauto | discriminate H].
  - intros [[H|[H|[H|[]]]]|(H & _)]; [discriminate H | tauto | discriminate H | discriminate H].
Qed.

(** The parameters and the samples that are meant. *)
Definition A86 : Args QcN := mkArgs QcN (qz (-1000)) (qz 1000) 0 0 0 (Q2Qc (1 # 2)) 0 [] 3 (qz 0) (qz 0) sorting_heap Qc_ceil (fun x _ => x).
Definition B86 : Behaviour Library := WholeSets QcN A86 (pl_sqrt QcN ex_platform).
Definition p86 (x w : Z) : pack QcN := mkPack QcN (qz x) (qz w) (fun _ => qz 77) (fun _ => []).
Definition es86 : list (event Library B86) := [Push Library B86 (p86 2 3); Push Library B86 (p86 5 1); Drop Library B86 t_count].
Lemma set_up86 : sets_up QcN ex_platform ts86 c86 A86.
Proof.
  repeat (split; [reflexivity |]). split.
  - intros k kd v Hw [[H|[]]|(-> & r & H)]; [injection H as <- <-; reflexivity | discriminate H].
  - intros Hw. apply takes86 in Hw. discriminate Hw.
Qed.
Lemma deeds86 : Forall2 (deed_is QcN ex_platform A86 ts86) ds86 es86 /\ Forall2 (deed_is QcN ex_platform A86 ts86) ds86' es86.
Proof.
  assert (X : forall x w u, says QcN ts86 [Positional (Scalar x); Named k_weight (Scalar w)] (mkPack QcN x w u (fun _ => [])) /\
                      says QcN ts86 [Named k_weight (Scalar w); Named k_sample (Scalar x)] (mkPack QcN x w u (fun _ => []))).
  { assert (Y : forall k kd, wanted op_needs ts86 k kd -> kd = scalar).
    { intros k kd (t & Ht & H). unfold ts86 in Ht. cbn in Ht. repeat destruct Ht as [<-|Ht]; try contradiction; cbn in H; intuition congruence. }
    intros x w u. split; intros k kd v Hw G; apply Y in Hw; subst kd.
    - destruct G as [[H|[H|[]]]|(-> & r & H)]; [discriminate H | injection H as <- <-; reflexivity | injection H as <- _; reflexivity].
    - destruct G as [[H|[H|[]]]|(-> & r & H)]; [injection H as <- <-; reflexivity | injection H as <- <-; reflexivity | discriminate H]. }
  split; repeat (apply Forall2_cons; [first [reflexivity | split; [legally | split; [completely op_usual | apply X]]] |]); apply Forall2_nil.
Qed.
