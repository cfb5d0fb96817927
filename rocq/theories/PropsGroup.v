(** Property C44: group functions (la/farray/group.py). *)
From Verif Require Import GroupFacts.
From Verif Require Import PropsLarry PropsAlign PropsOps PropsNumeric PropsIndex PropsFarray.

(** The groups of the labels 3, 9, 1, 2: two sectors and one label without. *)
Definition exg : larry :=
  Larry (Nda DObj (Arr [4] [VStr "b"; VStr "a"; VStr "b"; VNone])) [[LInt 3; LInt 9; LInt 1; LInt 2]].
(** The same in another order and without the unused label. *)
Definition exg' : larry :=
  Larry (Nda DObj (Arr [3] [VStr "b"; VNone; VStr "b"])) [[LInt 1; LInt 2; LInt 3]].
Definition exh : larry :=
  Larry (Nda DFloat (Arr [5] [vf 7; vf 1; vf 4; VFloat NaN; vf 5])) [[LInt 3; LInt 9; LInt 1; LInt 2; LInt 8]].
Definition exh_groups : larry :=
  Larry (Nda DFloat (Arr [5] [vf 1; vf 2; VFloat NaN; vf 1; vf 1])) [[LInt 3; LInt 9; LInt 1; LInt 2; LInt 8]].

(** C44: each element is replaced by the statistic over the elements of its
    lane with its group. *)
Theorem C44_mean : forall y group a ax l gs,
  valid y -> numeric_larry y -> valid group -> length (llabel group) = 1 -> axis_is y a ax -> llabel y !! ax = Some l ->
  groups_of group l gs -> groups_sortable gs ->
  exists z, larry_group_mean y (Some group) a = Ok z /\ lanes_related (within_groups all_mean gs) y (Some a) z.
Proof. exact group_mean_total. Qed.
Theorem C44_median : forall y group a ax l gs,
  valid y -> numeric_larry y -> valid group -> length (llabel group) = 1 -> axis_is y a ax -> llabel y !! ax = Some l ->
  groups_of group l gs -> groups_sortable gs ->
  exists z, larry_group_median y (Some group) a = Ok z /\ lanes_related (within_groups all_median gs) y (Some a) z.
Proof. exact group_median_total. Qed.
Theorem C44_ranking : forall y group a ax l gs,
  valid y -> numeric_larry y -> valid group -> length (llabel group) = 1 -> axis_is y a ax -> llabel y !! ax = Some l ->
  groups_of group l gs -> groups_sortable gs ->
  exists z, larry_group_ranking y (Some group) a = Ok z /\ lanes_related (within_groups ranked gs) y (Some a) z.
Proof. exact group_ranking_total. Qed.
(** The order of the group larry is irrelevant: only its cells at the labels
    of [y] count. *)
Theorem C44_by_label : forall m y g1 g2 a ax l,
  m ∈ [larry_group_mean; larry_group_median; larry_group_ranking] ->
  valid y -> valid g1 -> valid g2 -> length (llabel g1) = 1 -> length (llabel g2) = 1 ->
  axis_is y a ax -> llabel y !! ax = Some l ->
  (forall x, x ∈ l -> exists v, cell g1 [x] = Some v /\ cell g2 [x] = Some v) ->
  m y (Some g1) a = m y (Some g2) a.
Proof. exact groups_by_label. Qed.
Theorem C44_error : forall m y group a,
  m ∈ [larry_group_mean; larry_group_median; larry_group_ranking] -> valid y ->
  m y None a = Err TypeError /\
  (valid group -> length (llabel group) <> 1 -> m y (Some group) a = Err ValueError) /\
  (valid group -> length (llabel group) = 1 ->
     ((forall ax, ~ axis_is y a ax) -> m y (Some group) a = Err IndexError) /\
     (forall ax l, axis_is y a ax -> llabel y !! ax = Some l ->
        ((exists x, x ∈ l /\ cell group [x] = None) -> m y (Some group) a = Err IndexError) /\
        (forall gs, groups_of group l gs ->
           (exists v, v ∈ gs /\ v <> VNone /\ ~ exists s, v = VStr s) -> (exists v, v ∈ gs /\ v <> VNone /\ to_num v = None) ->
           m y (Some group) a = Err TypeError))).
Proof. exact groups_error. Qed.
Example C44_example :
  valid exg /\ valid exg' /\ valid exh /\ valid exh_groups /\
  larry_group_mean exm (Some exg) 1 =
    Ok (Larry (Nda DFloat (Arr [2; 3] [vf 2; VFloat NaN; vf 2; vf (-1); VFloat NaN; vf (-1)])) (llabel exm)) /\
  larry_group_mean exm (Some exg') 1 = larry_group_mean exm (Some exg) 1 /\
  larry_group_mean exh (Some exh_groups) 0 =
    Ok (Larry (Nda DFloat (Arr [5] [vf 6; vf 1; VFloat NaN; vf 6; vf 6])) (llabel exh)) /\
  larry_group_median exh (Some exh_groups) 0 =
    Ok (Larry (Nda DFloat (Arr [5] [vf 6; vf 1; VFloat NaN; vf 6; vf 6])) (llabel exh)) /\
  larry_group_ranking exh (Some exh_groups) (-1) =
    Ok (Larry (Nda DFloat (Arr [5] [vf 1; vf 0; VFloat NaN; VFloat NaN; vf (-1)])) (llabel exh)) /\
  larry_group_mean exm (Some exg) 0 = Err IndexError /\
  larry_group_mean exm (Some exm) 0 = Err ValueError.
Proof. by_compute. Qed.
Example C44_groups : groups_of exg [LInt 1; LInt 2; LInt 3] [VStr "b"; VNone; VStr "b"].
Proof. repeat constructor. Qed.

Print Assumptions C44_mean.
Print Assumptions C44_median.
Print Assumptions C44_ranking.
Print Assumptions C44_by_label.
Print Assumptions C44_error.
