(** C91: the order of the labels. *)
From Verif Require Import PropsLarry PropsOps PropsNumeric.
From Verif Require Import ReorderMain.

(** Summaries along the axis, or over the whole larry, are the same (errors
    included) for any order of its labels. *)
Theorem C91_summary : forall f y a0 l l' y' axis,
  summary_method f -> valid y -> llabel y !! a0 = Some l -> part_of y a0 l' y' -> l' ≡ₚ l ->
  match axis with None => True | Some a => axis_is y a a0 end ->
  f y' axis = f y axis.
Proof. exact summary_reorder. Qed.
(** Normalisations give each label the same values. *)
Theorem C91_normalise : forall f y a0 l l' y' axis z,
  normal_method f -> valid y -> llabel y !! a0 = Some l -> part_of y a0 l' y' -> l' ≡ₚ l ->
  match axis with None => True | Some a => axis_is y a a0 end ->
  f y axis = Ok z ->
  exists z', f y' axis = Ok z' /\ part_of z a0 l' z'.
Proof. exact normal_reorder. Qed.
(** For larrys turned around or sorted. *)
Theorem C91_flipaxis : forall f y axis ax y',
  summary_method f -> valid y -> axis_is y axis ax -> flipaxis y (Some axis) = Ok y' ->
  f y' (Some axis) = f y (Some axis) /\ f y' None = f y None.
Proof. exact summary_flip. Qed.
Theorem C91_sortaxis : forall f y axis ax reverse y',
  summary_method f -> valid y -> axis_is y axis ax -> sortaxis y (Some axis) reverse = Ok y' ->
  f y' (Some axis) = f y (Some axis) /\ f y' None = f y None.
Proof. exact summary_sort. Qed.

(** The columns of ex2 sorted: their maximum and the ranks of 5, 7 and 9 stay
    as they are; cumulative sums and lastrank depend on the order. *)
Example C91_example :
  let sorted := match sortaxis ex2 (Some 1%Z) false with Ok y => y | Err _ => ex2 end in
  let ndtri := fun n : num => n in
  llabel sorted = [[LStr "x"; LStr "y"]; [LInt 5; LInt 7; LInt 9]] /\
  larry_reduce RMax sorted (Some 1%Z) = Ok (OLar (Larry (Nda DInt (Arr [2] [VInt 3; VInt 6])) [[LStr "x"; LStr "y"]])) /\
  larry_reduce RMax sorted (Some 1%Z) = larry_reduce RMax ex2 (Some 1%Z) /\
  larry_ranking ndtri ex2 (Some (-1)%Z) NormOne = Ok (Larry (Nda DFloat (Arr [2; 3] (vf <$> [-1; 0; 1; -1; 0; 1]%Z))) (llabel ex2)) /\
  larry_ranking ndtri sorted (Some (-1)%Z) NormOne = Ok (Larry (Nda DFloat (Arr [2; 3] (vf <$> [1; -1; 0; 1; -1; 0]%Z))) (llabel sorted)) /\
  larry_cum SpecNum.CSum sorted (Some 1%Z) = Ok (Larry (Nda DInt (Arr [2; 3] (VInt <$> [3; 4; 6; 6; 10; 15]%Z))) (llabel sorted)) /\
  larry_cum SpecNum.CSum ex2 (Some 1%Z) = Ok (Larry (Nda DInt (Arr [2; 3] (VInt <$> [1; 3; 6; 4; 9; 15]%Z))) (llabel ex2)) /\
  larry_lastrank sorted 1 <> larry_lastrank ex2 1.
Proof. cbv zeta. by_compute. Qed.

Print Assumptions C91_summary.
Print Assumptions C91_normalise.
Print Assumptions C91_flipaxis.
Print Assumptions C91_sortaxis.
