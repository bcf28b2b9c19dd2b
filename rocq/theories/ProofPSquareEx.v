(** Concrete runs of the P-square estimators, and witnesses of the refuted parts. *)
From Coq Require Import List Arith Bool Lia QArith Qcanon Sorted.
From Verif Require Import Num NumFacts ModelPSquare SpecStats SpecDensity SpecPSquare ProofPSquareMore.
Import ListNotations.

Definition q (n : Z) : Qc := Q2Qc (inject_Z n).
Definition q2 (n : Z) (d : positive) : Qc := Q2Qc (n # d).
Definition show (l : list Qc) : list Q := map this l.
Definition show2 (l : list (Qc * Qc)) : list (Q * Q) := map (fun p => (this (fst p), this (snd p))) l.
Definition show_marks (o : outcome (psq QcN)) : outcome (list Q * list Q) :=
  obnd o (fun s => Ok (show (mh QcN (ps_marks QcN s)), show (mp QcN (ps_marks QcN s)))).
Definition show_pairs (f : psq QcN -> list (Qc * Qc)) (o : outcome (psq QcN)) : outcome (list (Q * Q)) :=
  obnd o (fun s => Ok (show2 (f s))).
Definition show1 (o : outcome Qc) : outcome Q := obnd o (fun r => Ok (this r)).

Definition ex_xs : list Qc := map q [5; 1; 4; 2; 9; 7; 3; 6; 8; 2]%Z.
Lemma ex_pq : show_marks (pq_run QcN (q2 1 2) ex_xs) = Ok ([1; 3; 91#18; 259#36; 9], [1; 4; 6; 8; 10])%Q.
Proof. vm_compute. reflexivity. Qed.
Lemma ex_pq_few : show1 (obnd (pq_run QcN (q2 1 2) [q 10; q 20; q 30; q 40]) (pq_result QcN)) = Ok 30%Q /\
  show1 (obnd (pq_run QcN (q2 1 2) [q 10; q 20]) (pq_result QcN)) = Ok 0%Q.
Proof. vm_compute. auto. Qed.
Lemma ex_pq_five : show1 (obnd (pq_run QcN (q2 1 10) (map q [1; 2; 3; 4; 5]%Z)) (pq_result QcN)) = Ok 3%Q.
Proof. vm_compute. reflexivity. Qed.
Lemma ex_cd : show_pairs (cd_pairs QcN) (cd_run QcN 3 ex_xs) = Ok [(1, 1#10); (113#36, 2#5); (497#72, 7#10); (9, 1)]%Q.
Proof. vm_compute. reflexivity. Qed.
Lemma ex_ext : obnd (ext_run QcN [q2 1 4; q2 1 2] ex_xs) (fun s => obnd (ext_result QcN [q2 1 4; q2 1 2] s) (fun r => Ok (show r))) = Ok [3; 5]%Q.
Proof. vm_compute. reflexivity. Qed.
Definition ex_es : list (Qc * Qc) := [(q 5, q 2); (q 1, q 1); (q 4, q 3); (q 2, q2 1 2); (q 9, q 1); (q 7, q 2); (q 0, q 1)].
Lemma ex_es_pos : Forall (fun e => ltb QcN (zero QcN) (snd e) = true) ex_es.
Proof. repeat constructor. Qed.
Lemma ex_wpq : show_marks (wpq_run QcN (q2 1 2) ex_es) = Ok ([0; 24#7; 4; 5; 9], [1; 7#2; 11#2; 15#2; 21#2])%Q.
Proof. vm_compute. reflexivity. Qed.
Lemma ex_wcd : show_pairs (wcd_pairs QcN) (wcd_run QcN 2 ex_es) = Ok [(0, 2#21); (2038#6237, 1#7); (9, 13#21)]%Q.
Proof. vm_compute. reflexivity. Qed.

(** Witnesses *)
Definition ex_123 : list Qc := map q [1; 2; 3]%Z.
Lemma wcd_not_monotone : exists s, wcd_run QcN 2 (units QcN ex_123) = Ok s /\ ~ NonDecreasing QcN (map snd (wcd_pairs QcN s)).
Proof.
  destruct (wcd_any QcN QcN_ordered 2 (units QcN ex_123)) as (s & E); [lia|repeat constructor|]. exists s. split; [exact E|].
  intros H. assert (S : show_pairs (wcd_pairs QcN) (wcd_run QcN 2 (units QcN ex_123)) = Ok [(1, 1#3); (2, 2#3); (3, 1#3)]%Q) by (vm_compute; reflexivity).
  rewrite E in S. cbn [show_pairs obnd] in S. injection S as S.
  destruct (wcd_pairs QcN s) as [|[x1 y1] [|[x2 y2] [|[x3 y3] [|]]]]; try discriminate S. unfold show2 in S. cbn [map fst snd] in S. injection S as _ _ _ S2 _ S3.
  cbn [map snd] in H. inversion_clear H as [|? ? H1 _]. inversion_clear H1 as [|? ? _ H2]. inversion_clear H2 as [|? ? H3 _].
  revert H3. cbn [ltb QcN]. unfold Qcltb. rewrite S2, S3. discriminate.
Qed.

Lemma cd_wrong_cell : exists s x0 y0 x1 y1 m, cd_run QcN 3 (map q [1; 2; 3; 4]%Z) = Ok s /\
  nth_error (cd_pairs QcN s) 0 = Some (x0, y0) /\ nth_error (cd_pairs QcN s) 1 = Some (x1, y1) /\
  ltb QcN y0 (half QcN) = true /\ ltb QcN y1 (half QcN) = false /\
  cdmed_value QcN (cd_pairs QcN s) = Ok m /\ ~ Between QcN x0 m x1.
Proof.
  destruct (cd_any QcN QcN_ordered 3 (map q [1; 2; 3; 4]%Z)) as (s & E); [lia|]. exists s.
  assert (S : show_pairs (cd_pairs QcN) (cd_run QcN 3 (map q [1; 2; 3; 4]%Z)) = Ok [(1, 1#4); (2, 1#2); (3, 3#4); (4, 1)]%Q) by (vm_compute; reflexivity).
  assert (V : show1 (obnd (cd_run QcN 3 (map q [1; 2; 3; 4]%Z)) (fun s => cdmed_value QcN (cd_pairs QcN s))) = Ok 3%Q) by (vm_compute; reflexivity).
  rewrite E in S, V. cbn [show_pairs show1 obnd] in S, V. injection S as S.
  destruct (cd_pairs QcN s) as [|[x1 y1] [|[x2 y2] ps]]; try discriminate S. unfold show2 in S. cbn [map fst snd] in S. injection S as S1 S2 S3 S4 _.
  destruct (cdmed_value QcN ((x1, y1) :: (x2, y2) :: ps)) as [m| |]; try discriminate V. cbn [show1 obnd] in V. injection V as V.
  exists x1, y1, x2, y2, m. split; [exact E|]. split; [reflexivity|]. split; [reflexivity|].
  cbn [ltb QcN]. unfold Between. cbn [ltb QcN]. unfold Qcltb. rewrite S1, S2, S3, S4, V. split; [vm_compute; reflexivity|]. split; [vm_compute; reflexivity|].
  split; [reflexivity|]. intros [_ H]. discriminate H.
Qed.
Lemma wext_none : wext_run QcN [] (units QcN (map q [1; 2; 3; 4]%Z)) = UB.
Proof. vm_compute. reflexivity. Qed.
Lemma eps_empty K ip p : eps_quantile K ip [] [] p = UB.
Proof. reflexivity. Qed.
Lemma ex_eps : show1 (eps_quantile QcN Linear [q2 1 4; q2 1 2; q2 3 4] (map q [2; 4; 9]%Z) (q2 5 8)) = Ok (13#2)%Q /\
  show1 (eps_quantile QcN Quadratic [q2 1 4; q2 1 2; q2 3 4] (map q [2; 4; 9]%Z) (q2 5 8)) = Ok (49#8)%Q /\
  Increasing QcN [q2 1 4; q2 1 2; q2 3 4] /\ NonDecreasing QcN (map q [2; 4; 9]%Z).
Proof. split; [vm_compute; reflexivity|]. split; [vm_compute; reflexivity|]. split; repeat constructor. Qed.
