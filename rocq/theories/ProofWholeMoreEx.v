(** Sets with the estimators of [ProofWholeMore]. *)

From Coq Require Import List Bool Arith ZArith QArith Qcanon.
From Verif Require Import Num ModelFramework SpecFramework ModelLibrary ModelSets SpecSets ModelWhole SpecWhole.
From Verif Require Import ProofFrameworkEx ProofWhole ProofWholeTop ProofWholeEx.
Import ListNotations.

(** [e]: a sample and its weight; the variate is the pair of the sample plus one and of its double. *)
Definition wpush' (pw : Qc -> Qc -> Qc) (e : Z * Z) : event Library (WB pw) :=
  Push Library (WB pw) (mkPack QcN (qz (fst e)) (qz (snd e)) (fun _ => qz 0) (fun _ => [qz (fst e + 1); qz (2 * fst e)])).
Definition es6 (pw : Qc -> Qc -> Qc) : list (event Library (WB pw)) :=
  map (wpush' pw) [(-2, 1); (8, 2); (4, 1); (1, 3); (5, 1); (6, 1); (3, 2); (2, 1); (7, 1)]%Z.

Definition fs6 : list (request Library) := [plain t_with_density_median; plain t_extended_p_square_quantile;
  plain (t_relative_tail_variate_means on_left 0); plain (t_peaks_over_threshold_prob on_left)].
Definition ts6 : list (ftag Library) :=
  [(t_count, false); (t_min, false); (t_max, false); (t_density, false); (t_with_density_median, false);
   (t_extended_p_square, false); (t_extended_p_square_quantile, false); (t_tail on_left, false);
   (t_non_coherent_tail_mean on_left, false); (t_tail_variate on_left 0, false);
   (t_relative_tail_variate_means on_left 0, false); (t_peaks_over_threshold_prob on_left, false)].
Definition live6 : list ltag := [t_with_density_median; t_extended_p_square_quantile;
  t_relative_tail_variate_means on_left 0; t_peaks_over_threshold_prob on_left].
Definition fs7 : list (request Library) := [plain t_with_p_square_cumulative_distribution_median;
  plain (t_tail_quantile on_left); plain (t_coherent_tail_mean on_left)].
Definition ts7 : list (ftag Library) :=
  [(t_count, false); (t_p_square_cumulative_distribution, false); (t_with_p_square_cumulative_distribution_median, false);
   (t_tail on_left, false); (t_tail_quantile on_left, false); (t_non_coherent_tail_mean on_left, false);
   (t_coherent_tail_mean on_left, false)].
Definition live7 : list ltag := [t_with_p_square_cumulative_distribution_median; t_tail_quantile on_left; t_coherent_tail_mean on_left].
Definition fs8 : list (request Library) := [plain t_weighted_median; plain t_weighted_extended_p_square;
  plain t_weighted_p_square_cumulative_distribution; plain (t_weighted_pot_tail_mean on_right);
  plain (t_absolute_weighted_tail_variate_means on_left 0)].
Definition ts8 : list (ftag Library) :=
  [(t_count, false); (t_sum_of_weights, false); (t_weighted_p_square_quantile_for_median, false); (t_weighted_median, false);
   (t_weighted_extended_p_square, false); (t_weighted_p_square_cumulative_distribution, false);
   (t_weighted_peaks_over_threshold on_right, false); (t_weighted_pot_quantile on_right, false);
   (t_weighted_pot_tail_mean on_right, false); (t_tail on_left, false); (t_tail_weights on_left, false);
   (t_non_coherent_weighted_tail_mean on_left, false); (t_tail_variate on_left 0, false);
   (t_absolute_weighted_tail_variate_means on_left 0, false)].
Definition live8 : list ltag := [t_weighted_median; t_weighted_extended_p_square; t_weighted_p_square_cumulative_distribution;
  t_weighted_pot_tail_mean on_right; t_absolute_weighted_tail_variate_means on_left 0].
Definition fs9 : list (request Library) := [plain t_with_density_weighted_median; plain (t_weighted_pot_tail_mean_prob on_left);
  plain (t_relative_weighted_tail_variate_means on_left 0)].
Definition ts9 : list (ftag Library) :=
  [(t_count, false); (t_sum_of_weights, false); (t_min, false); (t_max, false); (t_weighted_density, false);
   (t_with_density_weighted_median, false); (t_tail on_left, false); (t_tail_weights on_left, false);
   (t_weighted_peaks_over_threshold_prob on_left, false); (t_weighted_pot_quantile_prob on_left, false);
   (t_weighted_pot_tail_mean_prob on_left, false); (t_non_coherent_weighted_tail_mean on_left, false);
   (t_tail_variate on_left 0, false); (t_relative_weighted_tail_variate_means on_left 0, false)].
Definition live9 : list ltag := [t_with_density_weighted_median; t_weighted_pot_tail_mean_prob on_left;
  t_relative_weighted_tail_variate_means on_left 0].
Lemma tuple6 : make_tuple Library in_order false fs6 = ts6.
Proof. vm_compute; reflexivity. Qed.
Lemma tuple7 : make_tuple Library in_order false fs7 = ts7.
Proof. vm_compute; reflexivity. Qed.
Lemma tuple8 : make_tuple Library in_order true fs8 = ts8.
Proof. vm_compute; reflexivity. Qed.
Lemma tuple9 : make_tuple Library in_order true fs9 = ts9.
Proof. vm_compute; reflexivity. Qed.

Ltac session E ts :=
  intros pw t Ht; apply (plain_session QcN (ex_args pw) (fun x => x) in_order _ _ (es6 pw) _ false ts);
  [ apply in_order_enum
  | apply E
  | intros u Hu; each Hu
  | intros a b Ha Hb; each Ha
  | reflexivity
  | revert t Ht; apply Forall_forall; repeat apply Forall_cons; try apply Forall_nil; isin
  | revert t Ht; apply Forall_forall; repeat apply Forall_cons; try apply Forall_nil; vm_compute; reflexivity ].
Lemma session6 : forall pw t, In t live6 -> Session QcN (ex_args pw) (fun x => x) in_order false fs6 (es6 pw) t.
Proof. session tuple6 ts6. Qed.
Lemma session7 : forall pw t, In t live7 -> Session QcN (ex_args pw) (fun x => x) in_order false fs7 (es6 pw) t.
Proof. session tuple7 ts7. Qed.
Lemma session8 : forall pw t, In t live8 -> Session QcN (ex_args pw) (fun x => x) in_order true fs8 (es6 pw) t.
Proof. session tuple8 ts8. Qed.
Lemma session9 : forall pw t, In t live9 -> Session QcN (ex_args pw) (fun x => x) in_order true fs9 (es6 pw) t.
Proof. session tuple9 ts9. Qed.
Lemma contains6 : forall t, In (t, false) ts6 -> Contains in_order false fs6 t.
Proof. intros t H; exists false; now rewrite tuple6. Qed.
Lemma contains7 : forall t, In (t, false) ts7 -> Contains in_order false fs7 t.
Proof. intros t H; exists false; now rewrite tuple7. Qed.
Lemma contains8 : forall t, In (t, false) ts8 -> Contains in_order true fs8 t.
Proof. intros t H; exists false; now rewrite tuple8. Qed.
Lemma contains9 : forall t, In (t, false) ts9 -> Contains in_order true fs9 t.
Proof. intros t H; exists false; now rewrite tuple9. Qed.

(** What the sets report, functions of a probability taken at [p]; pow is replaced by its first argument. *)
Definition plainly' (p : Qc) (v : value QcN (note QcN)) : outcome (list Q) :=
  match v with
  | VRest (NLoop f) => match f 10%nat p with Some (Ok l) => Ok (map (fun x : Qc => this x) l) | _ => UB end
  | VRest (NFun f) => match f p with NotANumber => NotANumber | _ => plainly p v end
  | _ => plainly p v
  end.
Definition got6 (W : bool) (fs : list (request Library)) (p : Q) (t : ltag) : outcome (list Q) :=
  plainly' (Q2Qc p) (Extracted QcN (ex_args (fun x _ => x)) (fun x => x) in_order W fs (es6 (fun x _ => x)) t).
Lemma got_live6 : map (got6 false fs6 (1 # 4)) live6 = [Ok [9#2]; Ok [2#1]; Ok [4#1; 2#1]; Ok [223#16; 85#208; 1#52]]%Q.
Proof. vm_compute; reflexivity. Qed.
Lemma got_live7 : map (got6 false fs7 (1 # 4)) live7 = [Ok [53#8]; Ok [2#1]; Ok [1#2]]%Q.
Proof. vm_compute; reflexivity. Qed.
Lemma got_live8 : map (got6 true fs8 (1 # 2)) live8 =
  [Ok [23#8]; Ok [71#54; 3967#1296]; Ok [-2#1; 1#13; -3#2; 2#13; 49#16; 5#13; 8#1; 8#13]; Ok [1365385#245726]; Ok [16#7; 18#7]]%Q.
Proof. vm_compute; reflexivity. Qed.
Lemma got_live9 : map (got6 true fs9 (1 # 4)) live9 = [Ok [17#4]; Ok [61#64]; Ok [5#1; 2#1]]%Q.
Proof. vm_compute; reflexivity. Qed.
