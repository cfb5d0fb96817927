(** C96: adding, scaling, negating and any increasing change of the numbers. *)
From Verif Require Import PropsLarry PropsOps PropsNumeric.
From Verif Require Import SpecShift ShiftStats.

(** [y + c], [y * c], [-y] and [log] and the like change every number of a
    larry of floats. *)
Theorem C96_operators : forall c y, float_larry y ->
  larry_arith AAdd y (OpScalar (VFloat (Fin c))) = Ok (revalued (shifted c) y) /\
  larry_arith AMul y (OpScalar (VFloat (Fin c))) = Ok (revalued (scaled c) y) /\
  larry_neg y = Ok (revalued num_neg y) /\
  (forall f, larry_ufunc f y = Ok (revalued f y)).
Proof. exact operators_change. Qed.

(** Adding [c] to every number adds [c] to means, medians and extremes. *)
Theorem C96_shift_reduce : forall op c y axis, float_larry y -> op ∈ [RMean; RMedian; RMax; RMin] ->
  larry_reduce op (revalued (shifted c) y) axis = out_revalued (shifted c) <$> larry_reduce op y axis.
Proof. exact shift_reduce. Qed.
(** It does not change variances and standard deviations, *)
Theorem C96_shift_spread : forall sqrt c ddof y axis, float_larry y -> sqrt NaN = NaN ->
  larry_reduce (RVar ddof) (revalued (shifted c) y) axis = larry_reduce (RVar ddof) y axis /\
  larry_std sqrt (revalued (shifted c) y) axis ddof = larry_std sqrt y axis ddof.
Proof. exact shift_spread. Qed.
(** nor [demean], [demedian] and [zscore]. *)
Theorem C96_shift_centred : forall sqrt c y axis, float_larry y ->
  larry_demean (revalued (shifted c) y) axis = larry_demean y axis /\
  larry_demedian (revalued (shifted c) y) axis = larry_demedian y axis /\
  larry_zscore sqrt (revalued (shifted c) y) axis = larry_zscore sqrt y axis.
Proof. exact shift_centred. Qed.
(** It adds [c] to moving means and to the means and medians of groups. *)
Theorem C96_shift_windows : forall c y gr w axis, float_larry y ->
  larry_move MMean (revalued (shifted c) y) w axis = revalued (shifted c) <$> larry_move MMean y w axis /\
  (forall a, larry_group_mean (revalued (shifted c) y) gr a = revalued (shifted c) <$> larry_group_mean y gr a) /\
  (forall a, larry_group_median (revalued (shifted c) y) gr a = revalued (shifted c) <$> larry_group_median y gr a).
Proof. exact shift_windows. Qed.

(** Multiplying every number by [c], not 0, multiplies sums and means by [c], *)
Theorem C96_scale_reduce : forall op c y axis, float_larry y -> c <> 0%Qc -> op = RSum \/ op = RMean ->
  larry_reduce op (revalued (scaled c) y) axis = out_revalued (scaled c) <$> larry_reduce op y axis.
Proof. exact scale_reduce. Qed.
(** and variances by [c * c]; it multiplies what [demean], [move_sum],
    [move_mean] and [group_mean] return by [c]. *)
Theorem C96_scale_methods : forall c y gr w axis, float_larry y -> c <> 0%Qc ->
  (forall ddof, larry_reduce (RVar ddof) (revalued (scaled c) y) axis = out_revalued (scaled (c * c)) <$> larry_reduce (RVar ddof) y axis) /\
  larry_demean (revalued (scaled c) y) axis = revalued (scaled c) <$> larry_demean y axis /\
  (forall op, op = MSum \/ op = MMean -> larry_move op (revalued (scaled c) y) w axis = revalued (scaled c) <$> larry_move op y w axis) /\
  (forall a, larry_group_mean (revalued (scaled c) y) gr a = revalued (scaled c) <$> larry_group_mean y gr a).
Proof. exact scale_methods. Qed.
(** If [c] is positive, medians and extremes are multiplied too, *)
Theorem C96_scale_positive_reduce : forall op c y axis, float_larry y -> (0 < c)%Qc -> op ∈ [RSum; RMean; RMedian; RMax; RMin] ->
  larry_reduce op (revalued (scaled c) y) axis = out_revalued (scaled c) <$> larry_reduce op y axis.
Proof. exact scale_positive_reduce. Qed.
(** and, with a square root that is one, standard deviations, while [zscore]
    does not change. *)
Theorem C96_scale_positive_methods : forall sqrt c y gr axis, float_larry y -> (0 < c)%Qc ->
  larry_demedian (revalued (scaled c) y) axis = revalued (scaled c) <$> larry_demedian y axis /\
  (forall a, larry_group_median (revalued (scaled c) y) gr a = revalued (scaled c) <$> larry_group_median y gr a) /\
  (sqrt NaN = NaN -> (forall v, sqrt (scaled (c * c) v) = scaled c (sqrt v)) ->
     (forall ddof, larry_std sqrt (revalued (scaled c) y) axis ddof = out_revalued (scaled c) <$> larry_std sqrt y axis ddof) /\
     larry_zscore sqrt (revalued (scaled c) y) axis = larry_zscore sqrt y axis).
Proof. exact scale_positive_methods. Qed.

(** The largest of the negatives is the negative of the smallest. *)
Theorem C96_negate : forall y w axis, float_larry y ->
  (forall op op', (op, op') ∈ [(RMax, RMin); (RMin, RMax); (RMedian, RMedian)] ->
     larry_reduce op (revalued num_neg y) axis = out_revalued num_neg <$> larry_reduce op' y axis) /\
  (forall op op', (op, op') ∈ [(MMax, MMin); (MMin, MMax)] ->
     larry_move op (revalued num_neg y) w axis = revalued num_neg <$> larry_move op' y w axis).
Proof. exact negate_methods. Qed.

(** An increasing change of the numbers, such as a logarithm of positive ones,
    changes the extremes in the same way, *)
Theorem C96_increasing_extremes : forall h y w axis, float_larry y -> increasing h ->
  (forall op, op = RMax \/ op = RMin -> larry_reduce op (revalued h y) axis = out_revalued h <$> larry_reduce op y axis) /\
  (forall op, op = MMax \/ op = MMin -> larry_move op (revalued h y) w axis = revalued h <$> larry_move op y w axis).
Proof. exact increasing_extremes. Qed.
(** and leaves ranks as they are. *)
Theorem C96_increasing_ranks : forall ndtri exp h y gr axis norm a decay, float_larry y -> increasing h ->
  larry_ranking ndtri (revalued h y) axis norm = larry_ranking ndtri y axis norm /\
  larry_group_ranking (revalued h y) gr a = larry_group_ranking y gr a /\
  (finite_kept h -> larry_lastrank (revalued h y) a = larry_lastrank y a /\
     larry_lastrank_decay exp (revalued h y) a decay = larry_lastrank_decay exp y a decay).
Proof. exact increasing_ranks. Qed.
(** Adding, and multiplying by a positive number, are increasing. *)
Theorem C96_increasing : forall c,
  increasing (shifted c) /\ finite_kept (shifted c) /\ ((0 < c)%Qc -> increasing (scaled c) /\ finite_kept (scaled c)).
Proof. exact increasing_both. Qed.

Example exm_float : float_larry exm.
Proof. split; [exact exn_valid|done]. Qed.
Definition q10 : Qc := Qc_of_Z 10.
Definition ab (l : list val) : larry := Larry (Nda DFloat (Arr [2] l)) [[LStr "a"; LStr "b"]].
Example C96_operators_ex :
  larr (revalued (shifted q10) exm) = Arr [2; 3] [vf 11; VFloat NaN; vf 13; vf 14; vf 15; vf 4] /\
  larr (revalued (scaled q10) exm) = Arr [2; 3] [vf 10; VFloat NaN; vf 30; vf 40; vf 50; vf (-60)] /\
  larr (revalued num_neg exm) = Arr [2; 3] [vf (-1); VFloat NaN; vf (-3); vf (-4); vf (-5); vf 6].
Proof. by_compute. Qed.
Example C96_reduce_ex :
  larry_reduce RMean (revalued (shifted q10) exm) (Some 1%Z) = Ok (OLar (ab [vf 12; vf 11])) /\
  larry_reduce RMean exm (Some 1%Z) = Ok (OLar (ab [vf 2; vf 1])) /\
  larry_reduce RMean (revalued (scaled q10) exm) (Some 1%Z) = Ok (OLar (ab [vf 20; vf 10])) /\
  larry_reduce (RVar 0) (revalued (shifted q10) exm) None = larry_reduce (RVar 0) exm None /\
  larry_reduce RMax (revalued num_neg exm) (Some 1%Z) = Ok (OLar (ab [vf (-1); vf 6])) /\
  larry_reduce RMin exm (Some 1%Z) = Ok (OLar (ab [vf 1; vf (-6)])).
Proof. by_compute. Qed.
Example C96_methods_ex :
  larry_demean (revalued (shifted q10) exm) (Some 1%Z) = larry_demean exm (Some 1%Z) /\
  larr <$> larry_demean exm (Some 1%Z) = Ok (Arr [2; 3] [vf (-1); VFloat NaN; vf 1; vf 3; vf 4; vf (-7)]) /\
  larr <$> larry_demean (revalued (scaled q10) exm) (Some 1%Z) = Ok (Arr [2; 3] [vf (-10); VFloat NaN; vf 10; vf 30; vf 40; vf (-70)]) /\
  larr <$> larry_move MMean (revalued (shifted q10) exm) 2 (Some 1%Z) = Ok (Arr [2; 3] [VFloat NaN; vf 11; vf 13; VFloat NaN; VFloat (Fin (Qc_of_Z 29 / Qc_of_Z 2)); VFloat (Fin (Qc_of_Z 19 / Qc_of_Z 2))]) /\
  larry_ranking id (revalued (scaled q10) exm) (Some 1%Z) NormOne = larry_ranking id exm (Some 1%Z) NormOne /\
  larr <$> larry_ranking id exm (Some 1%Z) NormOne = Ok (Arr [2; 3] [vf (-1); VFloat NaN; vf 1; vf 0; vf 1; vf (-1)]).
Proof. by_compute. Qed.
(** The sum, unlike the mean, is not shifted by [c]; multiplying by a negative
    number turns the largest into the smallest. *)
Example C96_limits_ex :
  larry_reduce RSum (revalued (shifted q10) exm) (Some 1%Z) = Ok (OLar (ab [vf 24; vf 33])) /\
  larry_reduce RSum exm (Some 1%Z) = Ok (OLar (ab [vf 4; vf 3])) /\
  larry_reduce RMax (revalued (scaled (- q10)) exm) (Some 1%Z) = Ok (OLar (ab [vf (-10); vf 60])) /\
  larry_reduce RMax exm (Some 1%Z) = Ok (OLar (ab [vf 3; vf 5])).
Proof. by_compute. Qed.

Print Assumptions C96_operators.
Print Assumptions C96_shift_reduce.
Print Assumptions C96_shift_spread.
Print Assumptions C96_shift_centred.
Print Assumptions C96_shift_windows.
Print Assumptions C96_scale_reduce.
Print Assumptions C96_scale_methods.
Print Assumptions C96_scale_positive_reduce.
Print Assumptions C96_scale_positive_methods.
Print Assumptions C96_negate.
Print Assumptions C96_increasing_extremes.
Print Assumptions C96_increasing_ranks.
Print Assumptions C96_increasing.
