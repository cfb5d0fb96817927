(** C115: lanes do not mix. *)
From Verif Require Import LawsFacts Numeric MoveFacts MovingFacts SpecFacts GroupFacts PropsLarry PropsOps PropsNumeric PropsFarray PropsMove PropsMoving PropsGroup.
From Verif Require Import AloneFacts.

Theorem C115_reduce : forall op y y' a ax ls,
  op = RSum \/ op = RMean \/ op = RMedian \/ op = RMin \/ op = RMax \/ (exists d, op = RVar d) ->
  valid y -> nonempty y -> arithmetic (ldtype y) -> valid y' -> arithmetic (ldtype y') -> axis_is y a ax -> same_lane ax ls y y' ->
  exists b b', larry_reduce op y (Some a) = Ok b /\ larry_reduce op y' (Some a) = Ok b' /\ same_number_at ls b b'.
Proof. exact alone_reduce. Qed.
Theorem C115_ranking : forall ndtri y y' a ax ls,
  valid y -> numeric_larry y -> valid y' -> numeric_larry y' -> axis_is y a ax -> same_lane ax ls y y' ->
  exists z z', larry_ranking ndtri y (Some a) NormOne = Ok z /\ larry_ranking ndtri y' (Some a) NormOne = Ok z' /\ same_lane ax ls z z'.
Proof. exact alone_ranking. Qed.
Theorem C115_normalise : forall m root y y' a ax ls,
  m ∈ [larry_demean; larry_demedian; larry_zscore root] ->
  valid y -> numeric_larry y -> valid y' -> numeric_larry y' -> axis_is y a ax -> same_lane ax ls y y' ->
  exists z z', m y (Some a) = Ok z /\ m y' (Some a) = Ok z' /\ same_lane ax ls z z'.
Proof. exact alone_normalise. Qed.
Theorem C115_moving : forall op y y' w a ax l ls,
  (forall root, op = MStd root -> root NaN = NaN) -> valid y -> numeric_larry y -> valid y' -> numeric_larry y' ->
  axis_is y a ax -> llabel y !! ax = Some l -> (1 <= w <= Z.of_nat (length l))%Z -> same_lane ax ls y y' ->
  exists z z', larry_move op y w (Some a) = Ok z /\ larry_move op y' w (Some a) = Ok z' /\ same_lane ax ls z z'.
Proof. exact alone_move. Qed.
Theorem C115_windows : forall m layout method y y' w a ax l ls,
  m ∈ [larry_move_median; larry_move_ranking] -> good_layout layout -> valid y -> numeric_larry y -> valid y' -> numeric_larry y' ->
  axis_is y a ax -> llabel y !! ax = Some l -> (1 <= w <= Z.of_nat (length l))%Z ->
  method = MLoop \/ method = MStrides /\ length (llabel y) <= 3 -> same_lane ax ls y y' ->
  exists z z', m layout y w (Some a) method = Ok z /\ m layout y' w (Some a) method = Ok z' /\ same_lane ax ls z z'.
Proof. exact alone_windows. Qed.
Theorem C115_groups : forall m y y' group a ax l gs ls,
  m ∈ [larry_group_mean; larry_group_median; larry_group_ranking] ->
  valid y -> numeric_larry y -> valid y' -> numeric_larry y' -> valid group -> length (llabel group) = 1 ->
  axis_is y a ax -> llabel y !! ax = Some l -> groups_of group l gs -> groups_sortable gs -> same_lane ax ls y y' ->
  exists z z', m y (Some group) a = Ok z /\ m y' (Some group) a = Ok z' /\ same_lane ax ls z z'.
Proof. exact alone_group. Qed.
Theorem C115_std : forall root d y y' a ax ls,
  valid y -> nonempty y -> arithmetic (ldtype y) -> valid y' -> arithmetic (ldtype y') -> axis_is y a ax -> same_lane ax ls y y' ->
  exists b b', larry_std root y (Some a) d = Ok b /\ larry_std root y' (Some a) d = Ok b' /\ same_number_at ls b b'.
Proof. exact alone_std. Qed.
Theorem C115_movingsum : forall y y' w s norm a ax l ls,
  valid y -> numeric_larry y -> valid y' -> numeric_larry y' ->
  axis_is y a ax -> llabel y !! ax = Some l -> (1 <= w <= Z.of_nat (length l))%Z -> s <= length l -> same_lane ax ls y y' ->
  exists x x', np_movingsum (lx y) w s a norm = Ok x /\ np_movingsum (lx y') w s a norm = Ok x' /\
    same_lane ax ls (Larry x (llabel y)) (Larry x' (llabel y')).
Proof. exact alone_movingsum. Qed.
Theorem C115_forward : forall y y' w s norm a ax l ls,
  valid y -> numeric_larry y -> valid y' -> numeric_larry y' ->
  axis_is y a ax -> llabel y !! ax = Some l -> (1 <= w <= Z.of_nat (length l))%Z -> s <= length l -> same_lane ax ls y y' ->
  exists z z', larry_movingsum_forward y w s a norm = Ok z /\ larry_movingsum_forward y' w s a norm = Ok z' /\ same_lane ax ls z z'.
Proof. exact alone_forward. Qed.
Theorem C115_push : forall y y' n a ax ls,
  valid y -> arithmetic (ldtype y) -> valid y' -> arithmetic (ldtype y') -> axis_is y a ax -> same_lane ax ls y y' ->
  exists z z', larry_push y n a = Ok z /\ larry_push y' n a = Ok z' /\ same_lane ax ls z z'.
Proof. exact alone_push. Qed.
Theorem C115_cumulative : forall op y y' a ax ls,
  valid y -> arithmetic (ldtype y) -> valid y' -> arithmetic (ldtype y') -> axis_is y a ax -> same_lane ax ls y y' ->
  exists z z', larry_cum op y (Some a) = Ok z /\ larry_cum op y' (Some a) = Ok z' /\ same_lane_num ax ls z z'.
Proof. exact alone_cum. Qed.

Definition ex_row : larry :=
  Larry (Nda DFloat (Arr [2; 3] [vf 1; VFloat NaN; vf 3; VFloat PInf; VFloat NaN; vf 7])) [[LStr "a"; LStr "b"]; [LInt 1; LInt 2; LInt 3]].
Example C115_example :
  larry_reduce RSum exm (Some 1%Z) = Ok (OLar (Larry (Nda DFloat (Arr [2] [vf 4; vf 3])) [[LStr "a"; LStr "b"]])) /\
  larry_reduce RSum ex_row (Some 1%Z) = Ok (OLar (Larry (Nda DFloat (Arr [2] [vf 4; VFloat PInf])) [[LStr "a"; LStr "b"]])) /\
  larry_demean exm (Some 1%Z) = Ok (Larry (Nda DFloat (Arr [2; 3] [vf (-1); VFloat NaN; vf 1; vf 3; vf 4; vf (-7)])) (llabel exm)) /\
  larry_demean ex_row (Some 1%Z) = Ok (Larry (Nda DFloat (Arr [2; 3] [vf (-1); VFloat NaN; vf 1; VFloat NaN; VFloat NaN; VFloat NInf])) (llabel exm)) /\
  larry_move MSum exm 2 (Some 1%Z) = Ok (Larry (Nda DFloat (Arr [2; 3] [VFloat NaN; vf 1; vf 3; VFloat NaN; vf 9; vf (-1)])) (llabel exm)) /\
  larry_move MMax ex_row 2 (Some 1%Z) = Ok (Larry (Nda DFloat (Arr [2; 3] [VFloat NaN; vf 1; vf 3; VFloat NaN; VFloat PInf; vf 7])) (llabel exm)) /\
  larry_cum CSum ex_row (Some 1%Z) = Ok (Larry (Nda DFloat (Arr [2; 3] [vf 1; VFloat NaN; vf 4; VFloat PInf; VFloat NaN; VFloat PInf])) (llabel exm)) /\
  larry_push ex_row 1 1 = Ok (Larry (Nda DFloat (Arr [2; 3] [vf 1; vf 1; vf 3; VFloat NaN; VFloat NaN; vf 7])) (llabel exm)).
Proof. by_compute. Qed.
Example C115_lane : same_lane 1 [LStr "a"] exm ex_row.
Proof.
  split; [done|]. split. { simpl. constructor; [|constructor]. apply elem_of_cons. by left. }
  intros l x [= <-] Hx. repeat (apply elem_of_cons in Hx as [->|Hx]); [..|by apply elem_of_nil in Hx]; reflexivity.
Qed.

Print Assumptions C115_reduce.
Print Assumptions C115_ranking.
Print Assumptions C115_normalise.
Print Assumptions C115_moving.
Print Assumptions C115_windows.
Print Assumptions C115_groups.
Print Assumptions C115_std.
Print Assumptions C115_movingsum.
Print Assumptions C115_forward.
Print Assumptions C115_push.
Print Assumptions C115_cumulative.
