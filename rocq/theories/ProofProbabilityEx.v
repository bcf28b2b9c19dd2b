(** Proofs for C73, continued: P-square estimators, and examples. *)
From Coq Require Import List Arith Bool Lia ZArith QArith Qcanon.
From Verif Require Import Num NumFacts ModelTail ModelRolling ModelPSquare SpecStats SpecTail SpecPSquare SpecDensity SpecProbability
  ProofOrder ProofTailTop ProofProbability ProofPSquareInst ProofPSquareMore ProofPSquareEx.
Import ListNotations.

Section Eps.
Variable K : Num.
Hypothesis HO : OrderedLaws K.
Local Notation T := (car K).
Lemma eps_grows (probs hs : list T) : Increasing K probs -> NonDecreasing K hs -> length hs = length probs ->
  GrowsWithProbability K (eps_quantile K Linear probs hs).
Proof.
  intros HI HN HL p p' a b _ _ Hle Ea Eb.
  destruct (nth_error probs 0) as [first|] eqn:E0; [|unfold eps_quantile in Ea; rewrite E0 in Ea; discriminate].
  destruct (nth_error probs (length probs - 1)) as [last|] eqn:E1; [|unfold eps_quantile in Ea; rewrite E0, E1 in Ea; discriminate].
  destruct (ltb K p first) eqn:F1; [rewrite (eps_outside K Linear probs hs first last p E0 E1 (or_introl F1)) in Ea; discriminate|].
  destruct (ltb K last p') eqn:F2; [rewrite (eps_outside K Linear probs hs first last p' E0 E1 (or_intror F2)) in Eb; discriminate|].
  assert (F3 : ltb K p' p = false) by (apply (leb_kle K) in Hle; exact Hle).
  destruct (eps_monotone K HO probs hs first last p p' HI HN HL E0 E1 F1 F3 F2) as (v & v' & V1 & V2 & V3).
  rewrite Ea in V1. injection V1 as <-. rewrite Eb in V2. injection V2 as <-. apply (leb_kle K). exact V3.
Qed.
Lemma ext_grows (probs xs : list T) : Increasing K probs -> (2 * length probs + 3 <= length xs)%nat ->
  exists s rs, ext_run K probs xs = Ok s /\ ext_result K probs s = Ok rs /\ GrowsWithProbability K (eps_quantile K Linear probs rs).
Proof.
  intros HI HL. destruct (ext_main K HO probs xs HL) as (s & rs & lo & hi & E1 & E2 & E3 & E4 & _).
  exists s, rs. split; [exact E1|]. split; [exact E2|]. apply eps_grows; assumption.
Qed.
Lemma wext_grows (probs : list T) (es : list (T * T)) : Increasing K probs -> probs <> [] -> (2 * length probs + 3 <= length es)%nat ->
  Forall (fun e => ltb K (zero K) (snd e) = true) es ->
  exists s rs, wext_run K probs es = Ok s /\ ext_result K probs s = Ok rs /\ GrowsWithProbability K (eps_quantile K Linear probs rs).
Proof.
  intros HI Hne HL HW. destruct (wext_main K HO probs es Hne HL HW) as (s & rs & lo & hi & E1 & E2 & E3 & E4 & _).
  exists s, rs. split; [exact E1|]. split; [exact E2|]. apply eps_grows; assumption.
Qed.
End Eps.

(** Nine samples, 0 five times and 10 four times. *)
Definition ex_steps : list Qc := map q [0; 0; 0; 0; 0; 10; 10; 10; 10]%Z.
Definition ex_quarters : list Qc := [q2 1 4; q2 1 2; q2 3 4].
Lemma quadratic_falls : exists s rs a b, Increasing QcN ex_quarters /\
  ext_run QcN ex_quarters ex_steps = Ok s /\ ext_result QcN ex_quarters s = Ok rs /\
  Inside01 QcN (q2 1 4) /\ Inside01 QcN (q2 3 8) /\ leb QcN (q2 1 4) (q2 3 8) = true /\
  eps_quantile QcN Quadratic ex_quarters rs (q2 1 4) = Ok a /\ eps_quantile QcN Quadratic ex_quarters rs (q2 3 8) = Ok b /\
  ltb QcN b a = true /\ Forall (fun x => ltb QcN b x = true) ex_steps.
Proof.
  assert (C0 : match ext_run QcN ex_quarters ex_steps with Ok s => match ext_result QcN ex_quarters s with Ok rs => map this rs | _ => [] end | _ => [] end = [0; 0; 10]%Q)
    by (vm_compute; reflexivity).
  destruct (ext_run QcN ex_quarters ex_steps) as [s| |] eqn:E; [|discriminate C0..].
  destruct (ext_result QcN ex_quarters s) as [rs| |] eqn:E1; [|discriminate C0..].
  assert (Ers : rs = map q [0; 0; 10]%Z).
  { destruct rs as [|r0 [|r1 [|r2 [|r3 rs]]]]; try discriminate C0. injection C0 as H0 H1 H2. cbn [map].
    f_equal; [apply Qc_is_canon; rewrite H0; reflexivity|]. f_equal; [apply Qc_is_canon; rewrite H1; reflexivity|].
    f_equal. apply Qc_is_canon; rewrite H2; reflexivity. }
  assert (Ca : show1 (eps_quantile QcN Quadratic ex_quarters rs (q2 1 4)) = Ok 0%Q) by (rewrite Ers; vm_compute; reflexivity).
  assert (Cb : show1 (eps_quantile QcN Quadratic ex_quarters rs (q2 3 8)) = Ok (-5#4)%Q) by (rewrite Ers; vm_compute; reflexivity).
  destruct (eps_quantile QcN Quadratic ex_quarters rs (q2 1 4)) as [a| |] eqn:Ea; [|discriminate Ca..].
  destruct (eps_quantile QcN Quadratic ex_quarters rs (q2 3 8)) as [b| |] eqn:Eb; [|discriminate Cb..].
  unfold show1 in Ca, Cb. cbn [obnd] in Ca, Cb. injection Ca as Ta. injection Cb as Tb.
  assert (Qa : a = q 0) by (apply Qc_is_canon; rewrite Ta; reflexivity).
  assert (Qb : b = q2 (-5) 4) by (apply Qc_is_canon; rewrite Tb; reflexivity).
  exists s, rs, (q 0), (q2 (-5) 4). rewrite Qa in Ea. rewrite Qb in Eb.
  split; [repeat constructor|]. split; [reflexivity|]. split; [exact E1|].
  split; [split; reflexivity|]. split; [split; reflexivity|]. split; [reflexivity|].
  split; [exact Ea|]. split; [exact Eb|].
  split; [reflexivity|]. unfold ex_steps. cbn [map]. repeat (constructor; [reflexivity|]). constructor.
Qed.

(** Two P-square estimators fed with the same seven samples. *)
Definition ex_seven : list Qc := map q [8; 4; 7; 2; 7; 1; 1]%Z.
Lemma psquare_cross : show1 (obnd (pq_run QcN (q2 1 10) ex_seven) (pq_result QcN)) = Ok (205 # 54)%Q /\
  show1 (obnd (pq_run QcN (q2 1 4) ex_seven) (pq_result QcN)) = Ok (59 # 16)%Q.
Proof. split; vm_compute; reflexivity. Qed.
Lemma psquare_falls : exists p p' xs s s' a b, Inside01 QcN p /\ Inside01 QcN p' /\ leb QcN p p' = true /\
  pq_run QcN p xs = Ok s /\ pq_run QcN p' xs = Ok s' /\ pq_result QcN s = Ok a /\ pq_result QcN s' = Ok b /\ ltb QcN b a = true.
Proof.
  exists (q2 1 10), (q2 1 4), ex_seven. destruct psquare_cross as [H1 H2].
  destruct (pq_run QcN (q2 1 10) ex_seven) as [s| |] eqn:Es; [|discriminate H1..].
  destruct (pq_run QcN (q2 1 4) ex_seven) as [s'| |] eqn:Es'; [|discriminate H2..]. cbn [obnd] in H1, H2.
  destruct (pq_result QcN s) as [a| |] eqn:Ea; [|discriminate H1..]. destruct (pq_result QcN s') as [b| |] eqn:Eb; [|discriminate H2..].
  unfold show1 in H1, H2. cbn [obnd] in H1, H2. injection H1 as T1. injection H2 as T2.
  assert (Qa : a = q2 205 54) by (apply Qc_is_canon; rewrite T1; reflexivity).
  assert (Qb : b = q2 59 16) by (apply Qc_is_canon; rewrite T2; reflexivity). subst a b.
  exists s, s', (q2 205 54), (q2 59 16).
  split; [split; reflexivity|]. split; [split; reflexivity|]. split; [reflexivity|].
  split; [reflexivity|]. split; [reflexivity|]. split; [exact Ea|]. split; [exact Eb|]. reflexivity.
Qed.

(** Samples 1 to 4 (ex_ops): the coherent means at 1/2 and 5/8 fall although the ranks are equal. *)
Lemma coherent_ex : shown (ex_with Right 3 (fun t => coherent_tail_mean_result QcN Qc_ceil Right 4 t (Q2Qc (1#2)))) = Ok (7#2)%Q /\
  shown (ex_with Right 3 (fun t => coherent_tail_mean_result QcN Qc_ceil Right 4 t (Q2Qc (5#8)))) = Ok (53#16)%Q /\
  tail_n QcN Qc_ceil Right 4 (Q2Qc (1#2)) = tail_n QcN Qc_ceil Right 4 (Q2Qc (5#8)).
Proof. repeat split; vm_compute; reflexivity. Qed.
(** The others at 1/2 and 3/4. *)
Lemma grows_ex : shown (ex_with Right 3 (fun t => tail_quantile_result QcN Qc_ceil Right 4 t (Q2Qc (1#2)))) = Ok (3#1)%Q /\
  shown (ex_with Right 3 (fun t => tail_quantile_result QcN Qc_ceil Right 4 t (Q2Qc (3#4)))) = Ok (4#1)%Q /\
  shown (ex_with Right 3 (fun t => non_coherent_tail_mean_result QcN Qc_ceil Right 4 t (Q2Qc (1#2)))) = Ok (7#2)%Q /\
  shown (ex_with Right 3 (fun t => non_coherent_tail_mean_result QcN Qc_ceil Right 4 t (Q2Qc (3#4)))) = Ok (4#1)%Q.
Proof. repeat split; vm_compute; reflexivity. Qed.
Lemma wgrows_ex : Forall (fun e => leb QcN (zero QcN) (snd e) = true) ex_whist /\ ltb QcN (zero QcN) (TotalWeight QcN ex_whist) = true.
Proof. split; [repeat constructor|reflexivity]. Qed.
