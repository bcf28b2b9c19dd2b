(** Proofs about with_cached_result (C53). *)

From Coq Require Import List ZArith Bool Lia.
From Verif Require Import ModelCached SpecCached.
Import ListNotations.

Section Cached.
Context {AState Args Res : Type}.
Variable ainit : AState.
Variable aop : AState -> Args -> AState.
Variable ares : AState -> Args -> Res.
Local Notation uses := (uses ainit aop ares).
Local Notation used := (used aop ares).
Local Notation reported := (reported ainit aop ares).

Lemma uses_app : forall ck us vs, uses ck (us ++ vs) = fold_left (used ck) vs (uses ck us).
Proof. intros; unfold ModelCached.uses; now rewrite fold_left_app. Qed.

Lemma references : forall ck k, uses ck (repeat AddRef k) = Fine (mkCached ainit (Z.of_nat k) None).
Proof.
  intros ck k; induction k as [| k IH]; [reflexivity |].
  replace (repeat (@AddRef Args) (S k)) with (repeat (@AddRef Args) k ++ [AddRef])
    by (clear; induction k as [| k IH]; [reflexivity | cbn in *; now rewrite IH]).
  rewrite uses_app, IH; cbn; unfold add_ref_cached; cbn; do 2 f_equal; lia.
Qed.

Lemma running : forall ck k us, NoAddRef us -> (releases us < k)%nat ->
  fold_left (used ck) us (Fine (mkCached ainit (Z.of_nat k) None))
  = Fine (mkCached (fold_left aop (fed us) ainit) (Z.of_nat (k - releases us)) None).
Proof.
  intros ck k us; induction us as [| u us IH] using rev_ind; intros HA HR.
  - cbn; now rewrite Nat.sub_0_r.
  - unfold releases, fed, NoAddRef in *; rewrite flat_map_app, app_length in HR.
    rewrite fold_left_app, IH.
    2: { intros X; apply HA, in_or_app; now left. }
    2: lia.
    rewrite !flat_map_app, fold_left_app, app_length.
    set (r := length (flat_map _ us)) in *.
    destruct u as [| x | x |].
    + exfalso; apply HA, in_or_app; right; now left.
    + cbn [fold_left flat_map app length]; rewrite Nat.add_0_r; cbn.
      unfold operate_cached, has_result; cbn [ref_count base cache].
      destruct (Z.eqb_spec (Z.of_nat (k - r)) 0) as [E | E]; [cbn in HR; lia | reflexivity].
    + cbn in HR; cbn [fold_left flat_map app length]; cbn [ModelCached.used next].
      unfold drop_cached; cbn [ref_count base cache].
      destruct (Z.ltb_spec 0 (Z.of_nat (k - r))) as [L | L]; [| lia].
      rewrite andb_false_r.
      destruct (Z.eqb_spec (Z.of_nat (k - r)) 1) as [E | E]; [lia |].
      cbn; do 2 f_equal; lia.
    + cbn [fold_left flat_map app length]; rewrite Nat.add_0_r; cbn.
      unfold copy_cached, has_result; cbn [ref_count base cache].
      destruct (Z.eqb_spec (Z.of_nat (k - r)) 0) as [E | E]; [cbn in HR; lia | reflexivity].
Qed.

(** While references remain it is the wrapped accumulator. *)
Theorem cached_running : forall ck k us x, NoAddRef us -> (releases us < k)%nat ->
  reported ck (repeat AddRef k ++ us) x = Fine (ares (fold_left aop (fed us) ainit) x).
Proof.
  intros ck k us x HA HR; unfold ModelCached.reported; rewrite uses_app, references, running by assumption.
  cbn; unfold result_cached, has_result; cbn [ref_count base cache].
  destruct (Z.eqb_spec (Z.of_nat (k - releases us)) 0) as [E | E]; [lia | reflexivity].
Qed.

(** After the last release: the result at that moment is stored. *)
Lemma frozen_state : forall ck k us x vs, NoAddRef us -> (S (releases us) = k)%nat ->
  NoAddRef vs -> releases vs = 0%nat ->
  uses ck (repeat AddRef k ++ us ++ Release x :: vs)
  = Fine (mkCached (fold_left aop (fed us) ainit) 0 (Some (ares (fold_left aop (fed us) ainit) x))).
Proof.
  intros ck k us x vs HA HR HA' HR'.
  rewrite uses_app, references, fold_left_app, running by (assumption || lia).
  replace (k - releases us)%nat with 1%nat by lia.
  cbn [fold_left ModelCached.used next].
  unfold drop_cached, on_drop, has_result; cbn [ref_count base cache Z.of_nat Pos.of_succ_nat Z.eqb Z.ltb Z.compare].
  rewrite andb_false_r; cbn [Z.eqb Pos.eqb next base ref_count cache].
  change (1 - 1)%Z with 0%Z.
  clear HR; revert HA' HR'; unfold NoAddRef, releases; induction vs as [| v vs IH]; intros HA' HR'; [reflexivity |].
  cbn [fold_left]; destruct v as [| z | z |]; cbn in HR'.
  - exfalso; apply HA'; now left.
  - apply IH; [intros X; apply HA'; now right | exact HR'].
  - discriminate HR'.
  - apply IH; [intros X; apply HA'; now right | exact HR'].
Qed.

Theorem cached_frozen : forall ck k us x vs y, NoAddRef us -> (S (releases us) = k)%nat ->
  NoAddRef vs -> releases vs = 0%nat ->
  reported ck (repeat AddRef k ++ us ++ Release x :: vs) y = Fine (ares (fold_left aop (fed us) ainit) x).
Proof.
  intros ck k us x vs y HA HR HA' HR'; unfold ModelCached.reported.
  now rewrite frozen_state by assumption.
Qed.

(** Without a reference the cache is read although nothing is in it. *)
Theorem cached_raw : forall ck us x, NoAddRef us -> releases us = 0%nat ->
  reported ck us x = Undefined /\ next (uses ck us) destroy_cached = Undefined.
Proof.
  intros ck us x HA HR.
  assert (H : uses ck us = Fine (construct_cached ainit) \/ uses ck us = Undefined).
  { revert HA HR; unfold NoAddRef, releases; induction us as [| u us IH] using rev_ind; intros HA HR; [now left |].
    rewrite flat_map_app, app_length in HR.
    assert (IH' := IH (fun X => HA (in_or_app _ _ _ (or_introl X))) ltac:(lia)).
    rewrite uses_app; destruct IH' as [E | E]; rewrite E; [| right; destruct u; reflexivity].
    destruct u as [| z | z |]; [exfalso; apply HA, in_or_app; right; now left | now left | cbn in HR; lia | now right]. }
  unfold ModelCached.reported; destruct H as [-> | ->]; now split.
Qed.

(** A release too many: the assertion; without it the accumulator runs again and the
    stored result is ignored. *)
Theorem cached_over : forall k us x vs z ws y, NoAddRef us -> (S (releases us) = k)%nat ->
  NoAddRef vs -> releases vs = 0%nat -> NoAddRef ws ->
  uses true (repeat AddRef k ++ us ++ (Release x :: vs) ++ Release z :: ws) = Asserted /\
  reported false (repeat AddRef k ++ us ++ (Release x :: vs) ++ Release z :: ws) y
  = Fine (ares (fold_left aop (fed us ++ fed ws) ainit) y).
Proof.
  intros k us x vs z ws y HA HR HA' HR' HB.
  assert (E : forall ck, uses ck (repeat AddRef k ++ us ++ (Release x :: vs) ++ Release z :: ws)
     = fold_left (used ck) (Release z :: ws) (uses ck (repeat AddRef k ++ us ++ Release x :: vs))).
  { intros ck; rewrite <- uses_app; f_equal; now rewrite <- !app_assoc. }
  split.
  - rewrite E, frozen_state by assumption; cbn.
    clear; induction ws as [| w ws IH]; [reflexivity | exact IH].
  - unfold ModelCached.reported; rewrite E, frozen_state by assumption; cbn [fold_left].
    set (st := fold_left aop (fed us) ainit); set (r := ares st x).
    change (used false (Fine (mkCached st 0 (Some r))) (Release z)) with (Fine (mkCached st (-1) (Some r))).
    assert (G : forall l b n o, ~ In AddRef l -> (n < 0)%Z -> exists n' o', (n' < 0)%Z /\
       fold_left (used false) l (Fine (mkCached b n o)) = Fine (mkCached (fold_left aop (fed l) b) n' o')).
    { clear; unfold fed; induction l as [| v l IH]; intros b n o HA Hn; [now exists n, o |].
      assert (HA' : ~ In AddRef l) by (intros X; apply HA; now right).
      cbn [fold_left]; destruct v as [| a | a |]; cbn [flat_map app fold_left].
      - exfalso; apply HA; now left.
      - cbn [ModelCached.used next]; unfold operate_cached, has_result; cbn [ref_count base cache].
        destruct (Z.eqb_spec n 0) as [En | En]; [lia |]; now apply IH.
      - cbn [ModelCached.used next]; unfold drop_cached; cbn [ref_count base cache andb].
        destruct (Z.eqb_spec n 1) as [En | En]; [lia |]; cbn [next base ref_count cache]; apply IH; [assumption | lia].
      - cbn [ModelCached.used next]; unfold copy_cached, has_result; cbn [ref_count base cache].
        destruct (Z.eqb_spec n 0) as [En | En]; [lia |]; now apply IH. }
    destruct (G ws st (-1)%Z (Some r) HB ltac:(lia)) as [n' [o' [Hn Ew]]].
    refine (eq_trans (f_equal (fun m => next m (fun c => result_cached ares c y)) Ew) _).
    cbn [next]; unfold result_cached, has_result; cbn [ref_count base cache].
    destruct (Z.eqb_spec n' 0) as [En | En]; [lia |].
    unfold st; now rewrite <- fold_left_app.
Qed.

End Cached.
