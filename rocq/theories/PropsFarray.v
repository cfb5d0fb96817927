(** Properties C41, C42, C43, C56 and C64: normalisations
    (la/farray/normalize.py). *)
From Verif Require Import Create RankLarry QuantileFacts SortbyFacts.
From Verif Require Import PropsLarry PropsAlign PropsOps PropsNumeric PropsIndex.

Definition exr : larry :=
  Larry (Nda DFloat (Arr [2; 4] [vf 3; VFloat NaN; vf 1; vf 3; vf (-2); vf 7; VFloat PInf; vf 0]))
    [[LStr "a"; LStr "b"]; [LInt 1; LInt 2; LInt 3; LInt 4]].
Definition vq (a b : Z) : val := VFloat (num_div (num_of_Z a) (num_of_Z b)).

(** C41: ranking. *)
Theorem C41_succeeds : forall ndtri y axis norm,
  valid y -> numeric_larry y -> axis_ok y axis -> norm <> NormBad -> exists z, larry_ranking ndtri y axis norm = Ok z.
Proof. exact larry_ranking_ok. Qed.
Theorem C41_ranks : forall ndtri y axis z,
  valid y -> larry_ranking ndtri y axis NormOne = Ok z -> lanes_related ranked y axis z.
Proof. exact ranking_ranked. Qed.
Theorem C41_order : forall ndtri y axis z,
  valid y -> larry_ranking ndtri y axis NormOne = Ok z ->
  lanes_related (fun ns ms => same_order ns ms /\ within (num_of_Z (-1)) (num_of_Z 1) ns ms) y axis z.
Proof. exact ranking_order. Qed.
Theorem C41_antisymmetric : forall ndtri y1 y2 axis z1 z2,
  valid y1 -> valid y2 -> negated y1 y2 -> larry_ranking ndtri y1 axis NormOne = Ok z1 ->
  larry_ranking ndtri y2 axis NormOne = Ok z2 -> negated z1 z2.
Proof. exact ranking_negated. Qed.
Theorem C41_affine : forall ndtri y axis z,
  valid y -> larry_ranking ndtri y axis NormN = Ok z -> lanes_related ranked_N y axis z.
Proof. exact ranking_to_N. Qed.
Theorem C41_affine_order : forall ndtri y axis z,
  valid y -> larry_ranking ndtri y axis NormN = Ok z ->
  lanes_related (fun ns ms => same_order ns ms /\ within (num_of_Z 0) (num_of_Z (Z.of_nat (length ns) - 1)) ns ms) y axis z.
Proof. exact ranking_N_order. Qed.
(** For every function in the place of scipy's inverse normal distribution. *)
Theorem C41_gaussian : forall ndtri y axis z,
  valid y -> larry_ranking ndtri y axis NormGaussian = Ok z -> lanes_related (ranked_gaussian ndtri) y axis z.
Proof. exact ranking_to_gaussian. Qed.
Theorem C41_error : forall ndtri y axis,
  valid y -> numeric_larry y ->
  (axis_ok y axis -> larry_ranking ndtri y axis NormBad = Err ValueError) /\
  (forall norm, ~ axis_ok y axis -> larry_ranking ndtri y axis norm = Err IndexError \/ larry_ranking ndtri y axis norm = Err ValueError).
Proof. exact ranking_error. Qed.
Example C41_example :
  larry_ranking id exr (Some 1%Z) NormOne =
    Ok (Larry (Nda DFloat (Arr [2; 4] [vq 1 2; VFloat NaN; vf (-1); vq 1 2; vf (-1); vq 1 3; vf 1; vq (-1) 3])) (llabel exr)) /\
  larry_ranking id exr (Some 1%Z) NormN =
    Ok (Larry (Nda DFloat (Arr [2; 4] [vq 9 4; VFloat NaN; vf 0; vq 9 4; vf 0; vf 2; vf 3; vf 1])) (llabel exr)) /\
  larry_ranking id exr (Some 0%Z) NormOne =
    Ok (Larry (Nda DFloat (Arr [2; 4] [vf 1; VFloat NaN; vf (-1); vf 1; vf (-1); vf 0; vf 1; vf (-1)])) (llabel exr)) /\
  larry_ranking id exi None NormGaussian =
    Ok (Larry (Nda DFloat (Arr [2; 2] [vq 1 5; vq 2 5; vq 3 5; vq 4 5])) (llabel exi)) /\
  larry_ranking id exb None NormOne = Err NotImplementedError.
Proof. by_compute. Qed.

(** C42: lastrank. *)
Theorem C42_lastrank_partial : forall ndtri y a ax,
  valid y -> numeric_larry y -> nonempty y -> axis_is y a ax ->
  (forall ls vs ns, lane_of y ax ls vs -> numbers vs ns -> no_infinity ns /\ (last ns = Some NaN \/ 2 <= length (present ns))) ->
  exists z o, larry_ranking ndtri y (Some a) NormOne = Ok z /\ larry_lastrank y a = Ok o /\
    reduction_by (fun vs v => last vs = Some v) z (Some a) o.
Proof. exact lastrank_ranking. Qed.
(** What is computed in every case. *)
Theorem C42_lastrank_value : forall y a ax,
  valid y -> numeric_larry y -> nonempty y -> axis_is y a ax ->
  exists o, larry_lastrank y a = Ok o /\
    reduction_by (fun vs v => exists ns m, numbers vs ns /\ v = VFloat m /\ last_ranked ns m) y (Some a) o.
Proof. exact larry_lastrank_total. Qed.
Theorem C42_lastrank_error : forall y a,
  valid y ->
  ((forall ax, ~ axis_is y a ax) -> larry_lastrank y a = Err IndexError) /\
  (ldtype y = DStr -> lsize y <> 0 -> forall ax, axis_is y a ax -> larry_lastrank y a = Err TypeError).
Proof. exact lastrank_error. Qed.
(** A single number: ranking gives 0, lastrank NaN. *)
Theorem C42_lastrank_single_refuted : exists y, valid y /\ ldtype y = DFloat /\ forall ndtri,
  exists z v, larry_ranking ndtri y (Some 0%Z) NormOne = Ok z /\ last (data (larr z)) = Some (vf 0) /\
    larry_lastrank y 0 = Ok (OVal v) /\ v = VFloat NaN.
Proof.
  exists (Larry (Nda DFloat (Arr [2] [VFloat NaN; vf 5])) [[LStr "a"; LStr "b"]]). split; [solve_valid|]. split; [done|].
  intros ndtri. exists (Larry (Nda DFloat (Arr [2] [VFloat NaN; vf 0])) [[LStr "a"; LStr "b"]]), (VFloat NaN). by_compute.
Qed.
(** An infinity: ranking gives 1, lastrank NaN. *)
Theorem C42_lastrank_inf_refuted : exists y, valid y /\ ldtype y = DFloat /\ forall ndtri,
  exists z v, larry_ranking ndtri y (Some 0%Z) NormOne = Ok z /\ last (data (larr z)) = Some (vf 1) /\
    larry_lastrank y 0 = Ok (OVal v) /\ v = VFloat NaN.
Proof.
  exists (Larry (Nda DFloat (Arr [3] [vf 1; vf 5; VFloat PInf])) [[LStr "a"; LStr "b"; LStr "c"]]). split; [solve_valid|]. split; [done|].
  intros ndtri. exists (Larry (Nda DFloat (Arr [3] [vf (-1); vf 0; vf 1])) [[LStr "a"; LStr "b"; LStr "c"]]), (VFloat NaN). by_compute.
Qed.
Example C42_example :
  larry_lastrank exm 1 = Ok (OLar (Larry (Nda DFloat (Arr [2] [vf 1; vf (-1)])) [[LStr "a"; LStr "b"]])) /\
  larry_lastrank exr (-1) = Ok (OLar (Larry (Nda DFloat (Arr [2] [vq 1 2; vf 0])) [[LStr "a"; LStr "b"]])) /\
  larry_lastrank exr 2 = Err IndexError /\ larry_lastrank exs 0 = Err TypeError /\ larry_lastrank exs 1 = Err IndexError.
Proof. by_compute. Qed.

(** C43: quantile, for every argsort that sorts. *)
Theorem C43_quantile : forall argsort y q axis n,
  good_argsort argsort -> valid y -> numeric_larry y -> lane_length y axis n ->
  (q = 1 \/ 1 < q <= Z.of_nat n /\ (axis <> None -> nonempty y))%Z ->
  exists z, larry_quantile argsort y q axis = Ok z /\ lanes_related (quantiled (Z.to_nat q)) y axis z.
Proof. exact quantile_total. Qed.
Theorem C43_quantile_error : forall argsort y q axis n,
  valid y -> lane_length y axis n -> (q < 1 \/ 1 < q /\ Z.of_nat n < q)%Z -> larry_quantile argsort y q axis = Err ValueError.
Proof. exact quantile_error. Qed.
Theorem C43_quantile_axis_error : forall argsort y q a,
  valid y -> (forall ax, ~ axis_is y a ax) -> (1 < q)%Z -> larry_quantile argsort y q (Some a) = Err IndexError.
Proof. exact quantile_axis_error. Qed.
Theorem C43_argsort_exists : good_argsort np_argsort.
Proof. exact np_argsort_good. Qed.
Example C43_example :
  larry_quantile np_argsort exm 3 (Some 1%Z) =
    Ok (Larry (Nda DFloat (Arr [2; 3] [vf (-1); VFloat NaN; vf 1; vf 0; vf 1; vf (-1)])) (llabel exm)) /\
  larry_quantile np_argsort exr 2 None =
    Ok (Larry (Nda DFloat (Arr [2; 4] [vf 1; VFloat NaN; vf (-1); vf 1; vf (-1); vf 1; VFloat NaN; vf (-1)])) (llabel exr)) /\
  larry_quantile np_argsort exr 5 (Some 1%Z) = Err ValueError /\
  larry_quantile np_argsort exr 0 None = Err ValueError /\ larry_quantile np_argsort exr 2 (Some 2%Z) = Err IndexError.
Proof. by_compute. Qed.

(** C56: demean and demedian. *)
Theorem C56_demean : forall y axis,
  valid y -> numeric_larry y -> axis_ok y axis -> exists z, larry_demean y axis = Ok z /\ lanes_related demeaned y axis z.
Proof. exact demean_total. Qed.
Theorem C56_demedian : forall y axis,
  valid y -> numeric_larry y -> axis_ok y axis -> exists z, larry_demedian y axis = Ok z /\ lanes_related demedianed y axis z.
Proof. exact demedian_total. Qed.
Theorem C56_zero_mean_partial : forall y axis z,
  valid y -> larry_demean y axis = Ok z ->
  lanes_related (fun ns ms => no_infinity ns -> present ns <> [] ->
    mean_of (present ms) = num_of_Z 0 /\ forall k, ms !! k = Some NaN <-> ns !! k = Some NaN) y axis z.
Proof. exact demean_zero. Qed.
Theorem C56_zero_median_partial : forall y axis z,
  valid y -> larry_demedian y axis = Ok z ->
  lanes_related (fun ns ms => no_infinity ns -> present ns <> [] ->
    median_of (present ms) (num_of_Z 0) /\ forall k, ms !! k = Some NaN <-> ns !! k = Some NaN) y axis z.
Proof. exact demedian_zero. Qed.
Theorem C56_error : forall y a,
  valid y -> (forall ax, ~ axis_is y a ax) ->
  larry_demean y (Some a) = Err ValueError /\ larry_demedian y (Some a) = Err ValueError /\
  forall sqrt, larry_zscore sqrt y (Some a) = Err ValueError.
Proof. exact demean_error. Qed.
(** An infinity turns into NaN and the rest into minus infinity. *)
Theorem C56_infinity_refuted : exists y z, valid y /\ larry_demean y (Some 0%Z) = Ok z /\
  data (larr y) = [vf 1; VFloat PInf] /\ data (larr z) = [VFloat NInf; VFloat NaN].
Proof.
  exists (Larry (Nda DFloat (Arr [2] [vf 1; VFloat PInf])) [[LStr "a"; LStr "b"]]),
    (Larry (Nda DFloat (Arr [2] [VFloat NInf; VFloat NaN])) [[LStr "a"; LStr "b"]]). split; [solve_valid|]. by_compute.
Qed.
Example C56_example :
  larry_demean exm (Some 1%Z) =
    Ok (Larry (Nda DFloat (Arr [2; 3] [vf (-1); VFloat NaN; vf 1; vf 3; vf 4; vf (-7)])) (llabel exm)) /\
  larry_demedian exm None =
    Ok (Larry (Nda DFloat (Arr [2; 3] [vf (-2); VFloat NaN; vf 0; vf 1; vf 2; vf (-9)])) (llabel exm)) /\
  larry_demean exi (Some 0%Z) =
    Ok (Larry (Nda DFloat (Arr [2; 2] [vf (-1); vf (-1); vf 1; vf 1])) (llabel exi)) /\
  larry_demean exm (Some 5%Z) = Err ValueError.
Proof. by_compute. Qed.

(** C64: zscore, for every function in the place of the square root. *)
Theorem C64_zscore : forall sqrt y axis,
  valid y -> numeric_larry y -> axis_ok y axis -> exists z, larry_zscore sqrt y axis = Ok z /\ lanes_related (zscored sqrt) y axis z.
Proof. exact zscore_total. Qed.
(** Where the square root of the variance is exact the result has mean 0 and variance 1. *)
Theorem C64_unit_variance : forall sqrt y axis z,
  valid y -> larry_zscore sqrt y axis = Ok z ->
  lanes_related (fun ns ms => forall v s, no_infinity ns -> present ns <> [] -> reduced (RVar 0) (present ns) (Fin v) -> v <> 0%Qc ->
    sqrt (Fin v) = Fin s -> (s * s)%Qc = v ->
    reduced RMean (present ms) (num_of_Z 0) /\ reduced (RVar 0) (present ms) (num_of_Z 1)) y axis z.
Proof. exact zscore_unit. Qed.
(** A stand-in that is the square root of 0, 1 and 4. *)
Definition small_sqrt (n : num) : num := if decide (n = num_of_Z 4) then num_of_Z 2 else n.
Example C64_example :
  larry_zscore small_sqrt (Larry (Nda DFloat (Arr [2; 2] [vf 1; vf 5; vf 3; VFloat NaN])) (llabel exi)) (Some 1%Z) =
    Ok (Larry (Nda DFloat (Arr [2; 2] [vf (-1); vf 1; VFloat NaN; VFloat NaN])) (llabel exi)) /\
  larry_zscore small_sqrt exi (Some 0%Z) =
    Ok (Larry (Nda DFloat (Arr [2; 2] [vf (-1); vf (-1); vf 1; vf 1])) (llabel exi)).
Proof. by_compute. Qed.

Print Assumptions C41_succeeds.
Print Assumptions C41_ranks.
Print Assumptions C41_order.
Print Assumptions C41_antisymmetric.
Print Assumptions C41_affine.
Print Assumptions C41_affine_order.
Print Assumptions C41_gaussian.
Print Assumptions C41_error.
Print Assumptions C42_lastrank_partial.
Print Assumptions C42_lastrank_value.
Print Assumptions C42_lastrank_error.
Print Assumptions C42_lastrank_single_refuted.
Print Assumptions C42_lastrank_inf_refuted.
Print Assumptions C43_quantile.
Print Assumptions C43_quantile_error.
Print Assumptions C43_quantile_axis_error.
Print Assumptions C43_argsort_exists.
Print Assumptions C56_demean.
Print Assumptions C56_demedian.
Print Assumptions C56_zero_mean_partial.
Print Assumptions C56_zero_median_partial.
Print Assumptions C56_error.
Print Assumptions C56_infinity_refuted.
Print Assumptions C64_zscore.
Print Assumptions C64_unit_variance.
