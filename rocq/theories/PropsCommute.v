(** C89: what is computed for a part of a larry. *)
From Verif Require Import PropsLarry PropsOps.
From Verif Require Import CommuteMain.

(** Element by element. *)
Theorem C89_cells : forall f y a0 l' y' z,
  cell_method f -> valid y -> part_of y a0 l' y' -> f y = Ok z ->
  exists z', f y' = Ok z' /\ part_of z a0 l' z'.
Proof. exact cells_part. Qed.
(** Lane by lane, for parts along another axis. *)
Theorem C89_lanes : forall f y axis ax a0 l' y' z,
  lane_method f -> valid y -> axis_is y axis ax -> ax <> a0 -> l' <> [] -> part_of y a0 l' y' -> f y axis = Ok z ->
  exists z', f y' axis = Ok z' /\ part_of z a0 l' z'.
Proof. exact lanes_part. Qed.
(** Reductions. *)
Theorem C89_reductions : forall f y axis ax a0 l' y' r,
  reduce_method f -> valid y -> axis_is y axis ax -> ax <> a0 -> l' <> [] -> part_of y a0 l' y' -> f y axis = Ok r ->
  exists z z', r = OLar z /\ f y' axis = Ok (OLar z') /\ part_of z (axis_left ax a0) l' z'.
Proof. exact reductions_part. Qed.
(** There is only one part for given labels. *)
Theorem C89_unique : forall y a0 l' z1 z2, part_of y a0 l' z1 -> part_of y a0 l' z2 -> z1 = z2.
Proof. exact part_unique. Qed.

(** What gives parts. *)
Theorem C89_take_is_part : forall y ids axis y',
  valid y -> larry_take y ids axis = Ok y' ->
  exists ax l', axis_is y axis ax /\ part_of y ax l' y' /\ length l' = length ids.
Proof. exact take_part. Qed.
Theorem C89_keep_label_is_part : forall y op axis y',
  valid y -> keep_label y op (Some axis) = Ok y' ->
  (exists ax l, axis_is y axis ax /\ llabel y !! ax = Some l /\ exists x, x ∈ l /\ op_holds op x) ->
  exists ax l', axis_is y axis ax /\ part_of y ax l' y' /\ l' <> [].
Proof. exact keep_label_part. Qed.
Theorem C89_morph_is_part : forall y label axis ax l z,
  valid y -> axis_is y axis ax -> llabel y !! ax = Some l -> label <> [] -> (forall x, x ∈ label -> x ∈ l) ->
  morph y label axis = Ok z -> part_of y ax label z.
Proof. exact morph_part. Qed.
Theorem C89_flipaxis_is_part : forall y axis ax l y',
  valid y -> axis_is y axis ax -> llabel y !! ax = Some l -> flipaxis y (Some axis) = Ok y' -> part_of y ax (reverse l) y'.
Proof. exact flip_part. Qed.
Theorem C89_sortaxis_is_part : forall y axis ax rev l y',
  valid y -> axis_is y axis ax -> llabel y !! ax = Some l -> sortaxis y (Some axis) rev = Ok y' ->
  exists l', part_of y ax l' y' /\ l' ≡ₚ l.
Proof. exact sort_part. Qed.

(** So taking first or last is the same. *)
Theorem C89_take_cells : forall f y ids axis y' z,
  cell_method f -> valid y -> larry_take y ids axis = Ok y' -> f y = Ok z ->
  exists z', larry_take z ids axis = Ok z' /\ f y' = Ok z'.
Proof. exact cells_take. Qed.
Theorem C89_take_lanes : forall f y axis ax ids a0 y' z,
  lane_method f -> valid y -> axis_is y axis ax -> ax <> a0 -> ids <> [] ->
  larry_take y ids (Z.of_nat a0) = Ok y' -> f y axis = Ok z ->
  exists z', larry_take z ids (Z.of_nat a0) = Ok z' /\ f y' axis = Ok z'.
Proof. exact lanes_take. Qed.
Theorem C89_take_reductions : forall f y axis ax ids a0 y' r,
  reduce_method f -> valid y -> axis_is y axis ax -> ax <> a0 -> ids <> [] ->
  larry_take y ids (Z.of_nat a0) = Ok y' -> f y axis = Ok r ->
  exists z z', r = OLar z /\ larry_take z ids (Z.of_nat (axis_left ax a0)) = Ok z' /\ f y' axis = Ok (OLar z').
Proof. exact reductions_take. Qed.

(** Columns 5 and 7 of ex2: negated, summed cumulatively down the rows, and
    summed over the rows; the mean over the columns themselves differs. *)
Example C89_example :
  let part := match larry_take ex2 [-1; 0]%Z 1 with Ok y => y | Err _ => ex2 end in
  let then_take r axis := match r with Ok y => larry_take y [-1; 0]%Z axis | Err e => Err e end in
  let lar r := match r with Ok (OLar y) => Ok y | Ok (OVal _) => Err TypeError | Err e => Err e end in
  llabel part = [[LStr "x"; LStr "y"]; [LInt 5; LInt 7]] /\
  larry_neg part = then_take (larry_neg ex2) 1%Z /\
  larry_neg part = Ok (Larry (Nda DInt (Arr [2; 2] (VInt <$> [-3; -1; -6; -4]%Z))) (llabel part)) /\
  larry_cum SpecNum.CSum part (Some 0%Z) = then_take (larry_cum SpecNum.CSum ex2 (Some 0%Z)) 1%Z /\
  larry_cum SpecNum.CSum part (Some 0%Z) = Ok (Larry (Nda DInt (Arr [2; 2] (VInt <$> [3; 1; 9; 5]%Z))) (llabel part)) /\
  lar (larry_reduce RSum part (Some 0%Z)) = then_take (lar (larry_reduce RSum ex2 (Some 0%Z))) 0%Z /\
  lar (larry_reduce RSum part (Some 0%Z)) = Ok (Larry (Nda DInt (Arr [2] (VInt <$> [9; 5]%Z))) [[LInt 5; LInt 7]]) /\
  lar (larry_reduce RSum part (Some 1%Z)) <> lar (larry_reduce RSum ex2 (Some 1%Z)).
Proof. cbv zeta. by_compute. Qed.

Print Assumptions C89_cells.
Print Assumptions C89_lanes.
Print Assumptions C89_reductions.
Print Assumptions C89_unique.
Print Assumptions C89_take_is_part.
Print Assumptions C89_keep_label_is_part.
Print Assumptions C89_morph_is_part.
Print Assumptions C89_flipaxis_is_part.
Print Assumptions C89_sortaxis_is_part.
Print Assumptions C89_take_cells.
Print Assumptions C89_take_lanes.
Print Assumptions C89_take_reductions.
