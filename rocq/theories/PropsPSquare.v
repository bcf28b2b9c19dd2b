(** Property theorems C29-C35, C49-C51: P-square estimators. *)
From Coq Require Import List Arith QArith Qcanon.
From Verif Require Import Num NumFacts ModelRolling ModelPSquare SpecStats SpecDensity SpecPSquare
  ProofPSquareInst ProofPSquareMore ProofPSquareEx.
Import ListNotations.

(** ** C29: from five samples on, for every p. *)
Theorem C29_bracketed : forall (K : Num), OrderedLaws K -> forall (p : car K) (xs : list (car K)), (5 <= length xs)%nat ->
  exists s r lo hi, pq_run K p xs = Ok s /\
    MarkerHeights K 5 xs (mh K (ps_marks K s)) /\ MarkerRanks K 5 (length xs) (mp K (ps_marks K s)) /\
    md K (ps_marks K s) = map (fun f => add K (one K) (mul K (ofnat K (length xs - 1)) f)) (pq_inc K p) /\
    pq_result K s = Ok r /\ IsMin K xs lo /\ IsMax K xs hi /\ Between K lo r hi.
Proof. exact pq_main. Qed.
Print Assumptions C29_bracketed.
(** With fewer samples the result is the third sample, or zero if there is none. *)
Theorem C29_few_samples : forall (K : Num), OrderedLaws K -> forall (p : car K) (xs : list (car K)), (length xs < 5)%nat ->
  exists s, pq_run K p xs = Ok s /\ pq_result K s = Ok (nth 2 xs (zero K)).
Proof. exact pq_few. Qed.
Print Assumptions C29_few_samples.
Example C29_ex : show_marks (pq_run QcN (q2 1 2) ex_xs) = Ok ([1; 3; 91#18; 259#36; 9], [1; 4; 6; 8; 10])%Q.
Proof. exact ex_pq. Qed.
Example C29_few_ex : show1 (obnd (pq_run QcN (q2 1 2) [q 10; q 20; q 30; q 40]) (pq_result QcN)) = Ok 30%Q /\
  show1 (obnd (pq_run QcN (q2 1 2) [q 10; q 20]) (pq_result QcN)) = Ok 0%Q.
Proof. exact ex_pq_few. Qed.
(** With exactly five samples the result is their median, whatever p. *)
Example C29_five_ex : show1 (obnd (pq_run QcN (q2 1 10) (map q [1; 2; 3; 4; 5]%Z)) (pq_result QcN)) = Ok 3%Q.
Proof. exact ex_pq_five. Qed.

(** ** C30 *)
Theorem C30_distribution : forall (K : Num), OrderedLaws K -> forall (b : nat) (xs : list (car K)), (1 <= b)%nat -> (b < length xs)%nat ->
  exists s lo hi, cd_run K b xs = Ok s /\
    length (cd_pairs K s) = (b + 1)%nat /\
    IsMin K xs lo /\ IsMax K xs hi /\
    nth_error (cd_pairs K s) 0 = Some (lo, div K (one K) (ofnat K (length xs))) /\ nth_error (cd_pairs K s) b = Some (hi, one K) /\
    NonDecreasing K (map fst (cd_pairs K s)) /\ Increasing K (map snd (cd_pairs K s)) /\
    exists ns, map snd (cd_pairs K s) = map (fun n => div K (ofnat K n) (ofnat K (length xs))) ns.
Proof. exact cd_main. Qed.
Print Assumptions C30_distribution.
(** Extractions at any time in between (the histogram is cached) do not change what is reported. *)
Theorem C30_interleaving : forall (K : Num), OrderedLaws K -> forall (b : nat) (h0 : list (car K * car K)) (ops : list (cd_op K)),
  (1 <= b)%nat -> Forall (fun o => o <> CMedian K) ops -> Forall (fun e => snd e = one K) (cd_pushes ops) ->
  exists s c c' m out, cd_run K b (map fst (cd_pushes ops)) = Ok s /\
    cd_session K (cd_pairs K) (cd_push K b) (cd_start K b) h0 ops = Ok (c, m, out) /\
    cd_session K (cd_pairs K) (cd_push K b) (cd_start K b) h0 (ops ++ [CExtract K]) = Ok (c', m, out ++ [inl (cd_pairs K s)]).
Proof. exact cd_session_top. Qed.
Print Assumptions C30_interleaving.
Example C30_ex : show_pairs (cd_pairs QcN) (cd_run QcN 3 ex_xs) = Ok [(1, 1#10); (113#36, 2#5); (497#72, 7#10); (9, 1)]%Q.
Proof. exact ex_cd. Qed.

(** ** C31 *)
Theorem C31_monotone : forall (K : Num), OrderedLaws K -> forall (probs xs : list (car K)), (2 * length probs + 3 <= length xs)%nat ->
  exists s rs lo hi, ext_run K probs xs = Ok s /\ ext_result K probs s = Ok rs /\
    length rs = length probs /\ NonDecreasing K rs /\
    IsMin K xs lo /\ IsMax K xs hi /\ Forall (fun r => Between K lo r hi) rs /\
    MarkerHeights K (2 * length probs + 3) xs (mh K (ps_marks K s)) /\
    MarkerRanks K (2 * length probs + 3) (length xs) (mp K (ps_marks K s)) /\
    md K (ps_marks K s) = map (fun f => add K (one K) (mul K (ofnat K (length xs - 1)) f)) (ext_incs K probs).
Proof. exact ext_main. Qed.
Print Assumptions C31_monotone.
Example C31_ex : obnd (ext_run QcN [q2 1 4; q2 1 2] ex_xs) (fun s => obnd (ext_result QcN [q2 1 4; q2 1 2] s) (fun r => Ok (show r))) = Ok [3; 5]%Q.
Proof. exact ex_ext. Qed.

(** ** C32: [hs] are the estimates of extended_p_square. *)
Theorem C32_stored : forall (K : Num), OrderedLaws K -> forall (ip : interpolation) (probs hs : list (car K)) (i : nat) (p h : car K),
  Increasing K probs -> length hs = length probs -> nth_error probs i = Some p -> nth_error hs i = Some h ->
  eps_quantile K ip probs hs p = Ok h.
Proof. exact eps_stored. Qed.
Print Assumptions C32_stored.
Theorem C32_outside : forall (K : Num) (ip : interpolation) (probs hs : list (car K)) (first last p : car K),
  nth_error probs 0 = Some first -> nth_error probs (length probs - 1) = Some last ->
  ltb K p first = true \/ ltb K last p = true -> eps_quantile K ip probs hs p = NotANumber.
Proof. exact eps_outside. Qed.
Print Assumptions C32_outside.
Theorem C32_linear : forall (K : Num), OrderedLaws K -> forall (probs hs : list (car K)) (i : nat) (p p0 p1 h0 h1 : car K),
  Increasing K probs -> NonDecreasing K hs ->
  nth_error probs i = Some p0 -> nth_error probs (S i) = Some p1 -> nth_error hs i = Some h0 -> nth_error hs (S i) = Some h1 ->
  ltb K p0 p = true -> ltb K p p1 = true ->
  eps_quantile K Linear probs hs p = Ok (Line K p0 h0 p1 h1 p) /\ Between K h0 (Line K p0 h0 p1 h1 p) h1.
Proof. exact eps_linear. Qed.
Print Assumptions C32_linear.
Theorem C32_linear_monotone : forall (K : Num), OrderedLaws K -> forall (probs hs : list (car K)) (first last p p' : car K),
  Increasing K probs -> NonDecreasing K hs -> length hs = length probs ->
  nth_error probs 0 = Some first -> nth_error probs (length probs - 1) = Some last ->
  ltb K p first = false -> ltb K p' p = false -> ltb K last p' = false ->
  exists v v', eps_quantile K Linear probs hs p = Ok v /\ eps_quantile K Linear probs hs p' = Ok v' /\ ltb K v' v = false.
Proof. exact eps_monotone. Qed.
Print Assumptions C32_linear_monotone.
(** Quadratic: the parabola through three consecutive knots, among them both neighbours of p. *)
Theorem C32_quadratic : forall (K : Num), OrderedLaws K -> forall (probs hs : list (car K)) (i : nat) (p p0 p1 : car K),
  Increasing K probs -> length hs = length probs -> (3 <= length probs)%nat ->
  nth_error probs i = Some p0 -> nth_error probs (S i) = Some p1 -> ltb K p0 p = true -> ltb K p p1 = true ->
  exists j a b c ha hb hc, (j <= i)%nat /\ (i <= j + 1)%nat /\
    nth_error probs j = Some a /\ nth_error probs (j + 1) = Some b /\ nth_error probs (j + 2) = Some c /\
    nth_error hs j = Some ha /\ nth_error hs (j + 1) = Some hb /\ nth_error hs (j + 2) = Some hc /\
    eps_quantile K Quadratic probs hs p = Ok (Parabola K a ha b hb c hc p).
Proof. exact eps_quadratic. Qed.
Print Assumptions C32_quadratic.
(** With two probabilities the quadratic version reads outside the arrays; with none so do both. *)
Theorem C32_quadratic_two_refuted : forall (K : Num), OrderedLaws K -> forall p0 p1 h0 h1 p : car K,
  ltb K p0 p = true -> ltb K p p1 = true -> eps_quantile K Quadratic [p0; p1] [h0; h1] p = UB.
Proof. exact eps_quadratic_two. Qed.
Print Assumptions C32_quadratic_two_refuted.
Theorem C32_empty_refuted : forall (K : Num) (ip : interpolation) (p : car K), eps_quantile K ip [] [] p = UB.
Proof. exact eps_empty. Qed.
Print Assumptions C32_empty_refuted.
Example C32_ex : show1 (eps_quantile QcN Linear [q2 1 4; q2 1 2; q2 3 4] (map q [2; 4; 9]%Z) (q2 5 8)) = Ok (13#2)%Q /\
  show1 (eps_quantile QcN Quadratic [q2 1 4; q2 1 2; q2 3 4] (map q [2; 4; 9]%Z) (q2 5 8)) = Ok (49#8)%Q /\
  Increasing QcN [q2 1 4; q2 1 2; q2 3 4] /\ NonDecreasing QcN (map q [2; 4; 9]%Z).
Proof. exact ex_eps. Qed.

(** ** C33 *)
Theorem C33_bracketed : forall (K : Num), OrderedLaws K -> forall (p : car K) (es : list (car K * car K)), (5 <= length es)%nat ->
  Forall (fun e => ltb K (zero K) (snd e) = true) es ->
  exists s r lo hi, wpq_run K p es = Ok s /\
    MarkerHeights K 5 (map fst es) (mh K (ps_marks K s)) /\ MarkerWeights K 5 (TotalWeight K es) (mp K (ps_marks K s)) /\
    (length es = 5%nat \/ md K (ps_marks K s) =
       map (fun f => add K (nth 0 (mp K (ps_marks K s)) (zero K)) (mul K (sub K (TotalWeight K es) (nth 0 (mp K (ps_marks K s)) (zero K))) f)) (pq_inc K p)) /\
    pq_result K s = Ok r /\ IsMin K (map fst es) lo /\ IsMax K (map fst es) hi /\ Between K lo r hi.
Proof. exact wpq_main. Qed.
Print Assumptions C33_bracketed.
Theorem C33_unit_weights : forall (K : Num), OrderedLaws K -> forall (p : car K) (xs : list (car K)),
  exists s w, pq_run K p xs = Ok s /\ wpq_run K p (units K xs) = Ok w /\
    mh K (ps_marks K s) = mh K (ps_marks K w) /\ pq_result K s = pq_result K w /\
    ((5 <= length xs)%nat -> mp K (ps_marks K s) = mp K (ps_marks K w)).
Proof. exact wpq_unit. Qed.
Print Assumptions C33_unit_weights.
Example C33_ex : show_marks (wpq_run QcN (q2 1 2) ex_es) = Ok ([0; 24#7; 4; 5; 9], [1; 7#2; 11#2; 15#2; 21#2])%Q /\
  Forall (fun e => ltb QcN (zero QcN) (snd e) = true) ex_es.
Proof. exact (conj ex_wpq ex_es_pos). Qed.

(** ** C34.  What holds: the values are as in C30; the cumulative weights are in (0,1] and increase up
    to the last but one.  The last one is not 1, because the weights of the first b+1 samples are
    summed up only below index b: it misses exactly the weights of these samples other than the one with
    the largest value. *)
Theorem C34_distribution_partial : forall (K : Num), OrderedLaws K -> forall (b : nat) (es : list (car K * car K)),
  (1 <= b)%nat -> (b < length es)%nat -> Forall (fun e => ltb K (zero K) (snd e) = true) es ->
  exists s ps, wcd_run K b es = Ok s /\ wcd_pairs K s = ps /\
    MarkerHeights K (b + 1) (map fst es) (map fst ps) /\
    Increasing K (firstn b (map snd ps)) /\
    Forall (fun y => ltb K (zero K) y = true /\ ltb K (one K) y = false) (map snd ps) /\
    exists v w, In (v, w) (firstn (b + 1) es) /\ IsMax K (map fst (firstn (b + 1) es)) v /\
      nth_error (map snd ps) b = Some (sub K (one K) (div K (sub K (TotalWeight K (firstn (b + 1) es)) w) (TotalWeight K es))).
Proof. exact wcd_main. Qed.
Print Assumptions C34_distribution_partial.
Theorem C34_interleaving : forall (K : Num), OrderedLaws K -> forall (b : nat) (h0 : list (car K * car K)) (ops : list (cd_op K)),
  (1 <= b)%nat -> Forall (fun o => o <> CMedian K) ops -> Forall (fun e => ltb K (zero K) (snd e) = true) (cd_pushes ops) ->
  exists s c c' m out, wcd_run K b (cd_pushes ops) = Ok s /\
    cd_session K (wcd_pairs K) (wcd_push K b) (wcd_start K b) h0 ops = Ok (c, m, out) /\
    cd_session K (wcd_pairs K) (wcd_push K b) (wcd_start K b) h0 (ops ++ [CExtract K]) = Ok (c', m, out ++ [inl (wcd_pairs K s)]).
Proof. exact wcd_session_top. Qed.
Print Assumptions C34_interleaving.
(** The last cumulative weight is below 1, for every history (so with unit weights it differs from C30). *)
Theorem C34_last_refuted : forall (K : Num), OrderedLaws K -> forall (b : nat) (es : list (car K * car K)),
  (1 <= b)%nat -> (b < length es)%nat -> Forall (fun e => ltb K (zero K) (snd e) = true) es ->
  exists s y, wcd_run K b es = Ok s /\ nth_error (map snd (wcd_pairs K s)) b = Some y /\ ltb K y (one K) = true.
Proof. exact wcd_last. Qed.
Print Assumptions C34_last_refuted.
(** The cumulative weights need not even be monotone. *)
Theorem C34_monotone_refuted : exists s, wcd_run QcN 2 (units QcN ex_123) = Ok s /\ ~ NonDecreasing QcN (map snd (wcd_pairs QcN s)).
Proof. exact wcd_not_monotone. Qed.
Print Assumptions C34_monotone_refuted.
Example C34_ex : show_pairs (wcd_pairs QcN) (wcd_run QcN 2 ex_es) = Ok [(0, 2#21); (2038#6237, 1#7); (9, 13#21)]%Q.
Proof. exact ex_wcd. Qed.

(** ** C35.  Points i and i+1 bracket one half; the result is between points i+1 and i+2 (one cell too
    far), and undefined if point i+1 is the last one. *)
Theorem C35_median_partial : forall (K : Num), OrderedLaws K -> forall (b : nat) (xs : list (car K)),
  (1 <= b)%nat -> (b < length xs)%nat -> (3 <= length xs)%nat ->
  exists s i x0 y0 x1 y1, cd_run K b xs = Ok s /\ (i < b)%nat /\
    nth_error (cd_pairs K s) i = Some (x0, y0) /\ nth_error (cd_pairs K s) (S i) = Some (x1, y1) /\
    ltb K y0 (half K) = true /\ ltb K y1 (half K) = false /\
    (S i = b -> cdmed_value K (cd_pairs K s) = UB) /\
    ((S i < b)%nat -> exists m x2 y2, nth_error (cd_pairs K s) (S (S i)) = Some (x2, y2) /\
       cdmed_value K (cd_pairs K s) = Ok m /\ Between K x1 m x2).
Proof. exact cd_median. Qed.
Print Assumptions C35_median_partial.
(** What the median extractor reports after any calls is this value (its cache is coherent). *)
Theorem C35_interleaving : forall (K : Num) (b : nat) (h0 : list (car K * car K)) (ops : list (cd_op K)) c m out,
  Forall (fun e => snd e = one K) (cd_pushes ops) ->
  cd_session K (cd_pairs K) (cd_push K b) (cd_start K b) h0 ops = Ok (c, m, out) ->
  exists s, cd_run K b (map fst (cd_pushes ops)) = Ok s /\
    match cdmed_value K (cd_pairs K s) with
    | Ok r => exists c' m', cd_session K (cd_pairs K) (cd_push K b) (cd_start K b) h0 (ops ++ [CMedian K]) = Ok (c', m', out ++ [inr r])
    | NotANumber => cd_session K (cd_pairs K) (cd_push K b) (cd_start K b) h0 (ops ++ [CMedian K]) = NotANumber
    | UB => cd_session K (cd_pairs K) (cd_push K b) (cd_start K b) h0 (ops ++ [CMedian K]) = UB
    end.
Proof. exact cd_median_session. Qed.
Print Assumptions C35_interleaving.
Theorem C35_one_cell_refuted : forall (K : Num), OrderedLaws K -> forall xs : list (car K), (2 <= length xs)%nat ->
  exists s, cd_run K 1 xs = Ok s /\ cdmed_value K (cd_pairs K s) = UB.
Proof. exact cd_median_one. Qed.
Print Assumptions C35_one_cell_refuted.
Theorem C35_wrong_cell_refuted : exists s x0 y0 x1 y1 m, cd_run QcN 3 (map q [1; 2; 3; 4]%Z) = Ok s /\
  nth_error (cd_pairs QcN s) 0 = Some (x0, y0) /\ nth_error (cd_pairs QcN s) 1 = Some (x1, y1) /\
  ltb QcN y0 (half QcN) = true /\ ltb QcN y1 (half QcN) = false /\
  cdmed_value QcN (cd_pairs QcN s) = Ok m /\ ~ Between QcN x0 m x1.
Proof. exact cd_wrong_cell. Qed.
Print Assumptions C35_wrong_cell_refuted.

(** ** C49: the weighted extended P-square estimates. *)
Theorem C49_monotone : forall (K : Num), OrderedLaws K -> forall (probs : list (car K)) (es : list (car K * car K)),
  probs <> [] -> (2 * length probs + 3 <= length es)%nat -> Forall (fun e => ltb K (zero K) (snd e) = true) es ->
  exists s rs lo hi, wext_run K probs es = Ok s /\ ext_result K probs s = Ok rs /\
    length rs = length probs /\ NonDecreasing K rs /\
    IsMin K (map fst es) lo /\ IsMax K (map fst es) hi /\ Forall (fun r => Between K lo r hi) rs /\
    MarkerHeights K (2 * length probs + 3) (map fst es) (mh K (ps_marks K s)) /\
    MarkerWeights K (2 * length probs + 3) (TotalWeight K es) (mp K (ps_marks K s)) /\
    (length es = (2 * length probs + 3)%nat \/ md K (ps_marks K s) =
       map (fun f => add K (nth 0 (mp K (ps_marks K s)) (zero K)) (mul K (sub K (TotalWeight K es) (nth 0 (mp K (ps_marks K s)) (zero K))) f)) (ext_incs K probs)).
Proof. exact wext_main. Qed.
Print Assumptions C49_monotone.
Theorem C49_unit_weights : forall (K : Num), OrderedLaws K -> forall (probs xs : list (car K)), probs <> [] ->
  exists s w, ext_run K probs xs = Ok s /\ wext_run K probs (units K xs) = Ok w /\
    mh K (ps_marks K s) = mh K (ps_marks K w) /\ ext_result K probs s = ext_result K probs w /\
    ((2 * length probs + 3 <= length xs)%nat -> mp K (ps_marks K s) = mp K (ps_marks K w)).
Proof. exact wext_unit. Qed.
Print Assumptions C49_unit_weights.
(** Without probabilities the fourth sample reads probabilities[0]. *)
Theorem C49_no_probabilities_refuted : wext_run QcN [] (units QcN (map q [1; 2; 3; 4]%Z)) = UB.
Proof. exact wext_none. Qed.
Print Assumptions C49_no_probabilities_refuted.

(** ** C50: how a marker moves.  A marker at least one rank away from its desired position with room on that
    side moves by one, to the height of the parabola through it and its neighbours, or on the line to the
    neighbour if the parabola leaves the interval; otherwise it stays. *)
Theorem C50_marker_moves : forall (K : Num), OrderedLaws K ->
  forall (s : marks K) (i : nat) (pl hl pc hc pr hr dc : car K), (1 <= i)%nat ->
  nth_error (mh K s) (i - 1) = Some hl -> nth_error (mh K s) i = Some hc -> nth_error (mh K s) (i + 1) = Some hr ->
  nth_error (mp K s) (i - 1) = Some pl -> nth_error (mp K s) i = Some pc -> nth_error (mp K s) (i + 1) = Some pr ->
  nth_error (md K s) i = Some dc -> ltb K pl pc = true -> ltb K pc pr = true ->
  adjust_at K s i = Ok
    (if leb K (one K) (sub K dc pc) && ltb K (add K pc (one K)) pr then
       {| mh := set_nth i (MovedHeight K pl hl pc hc pr hr true) (mh K s); mp := set_nth i (add K pc (one K)) (mp K s); md := md K s |}
     else if leb K (one K) (sub K pc dc) && ltb K pl (sub K pc (one K)) then
       {| mh := set_nth i (MovedHeight K pl hl pc hc pr hr false) (mh K s); mp := set_nth i (sub K pc (one K)) (mp K s); md := md K s |}
     else s).
Proof. exact move_spec. Qed.
Print Assumptions C50_marker_moves.

(** A sample widens the outer markers if needed, and increases the position of exactly the inner markers
    that are above it, and of the last one, by its weight (1 without weights). *)
Theorem C50_push_right : forall (K : Num), OrderedLaws K ->
  forall (M : nat) (h p : list (car K)) (x w : car K), (2 <= M)%nat -> length h = M -> length p = M -> NonDecreasing K h ->
  exists h' k, locate K M h x = Ok (h', k) /\ length h' = M /\ length (bump K k w p) = M /\
    forall i, (i < M)%nat ->
      nth i h' (zero K) =
        (if Nat.eqb i 0 then if ltb K x (nth 0 h (zero K)) then x else nth 0 h (zero K)
         else if Nat.eqb i (M - 1) then if ltb K x (nth (M - 1) h (zero K)) then nth (M - 1) h (zero K) else x
         else nth i h (zero K)) /\
      nth i (bump K k w p) (zero K) =
        (if Nat.eqb i 0 then nth i p (zero K)
         else if Nat.eqb i (M - 1) then add K (nth i p (zero K)) w
         else if ltb K x (nth i h (zero K)) then add K (nth i p (zero K)) w else nth i p (zero K)).
Proof. exact push_right. Qed.
Print Assumptions C50_push_right.

(** ** C51: extended_p_square with one probability is p_square_quantile. *)
Theorem C51_one_probability : forall (K : Num), OrderedLaws K -> forall (p : car K) (xs : list (car K)),
  exists s r, ext_run K [p] xs = Ok s /\ pq_run K p xs = Ok s /\ pq_result K s = Ok r /\ ext_result K [p] s = Ok [r].
Proof. exact ext_one_result. Qed.
Print Assumptions C51_one_probability.
