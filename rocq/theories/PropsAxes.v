(** C95: the axes are interchangeable. *)
From Verif Require Import PropsLarry PropsOps PropsNumeric.
From Verif Require Import SpecAxes AxesMain.

(** A method that works cell by cell gives, for a larry with its axes in
    another order, the same result with its axes in that order. *)
Theorem C95_cells : forall f o y y',
  cell_method f -> valid y -> axes_permuted o y y' -> both (axes_permuted o) (f y) (f y').
Proof. exact axes_cells. Qed.

(** So does a method that works along an axis, when called with the axis as it
    is numbered in the other larry. *)
Theorem C95_lanes : forall f o y y' axis axis' ax k,
  lane_method f -> valid y -> axes_permuted o y y' ->
  axis_is y axis ax -> axis_is y' axis' k -> o !! k = Some ax ->
  both (axes_permuted o) (f y axis) (f y' axis').
Proof. exact axes_lanes. Qed.

(** Reductions along an axis leave the other axes in their order, or give the
    same number if there are no other axes. *)
Theorem C95_reductions : forall f o y y' axis axis' ax k,
  reduce_method f -> valid y -> axes_permuted o y y' ->
  axis_is y axis ax -> axis_is y' axis' k -> o !! k = Some ax ->
  both (out_permuted (order_left k ax o)) (f y axis) (f y' axis').
Proof. exact axes_reductions. Qed.

(** Summaries of all cells are the same, normalisations by them too. *)
Theorem C95_summaries : forall f o y y',
  summary_method f -> valid y -> axes_permuted o y y' -> both eq (f y None) (f y' None).
Proof. exact axes_summaries. Qed.
Theorem C95_normalisations : forall f o y y',
  normal_method f -> valid y -> axes_permuted o y y' -> both (axes_permuted o) (f y None) (f y' None).
Proof. exact axes_normal. Qed.

(** There is only one larry with the axes of [y] in the order [o], and the
    order can be undone. *)
Theorem C95_unique : forall o y z1 z2, axes_permuted o y z1 -> axes_permuted o y z2 -> z1 = z2.
Proof. exact axes_unique. Qed.
Theorem C95_back : forall o y y', valid y -> axes_permuted o y y' ->
  exists o', axes_permuted o' y' y /\ forall i k, o !! k = Some i <-> o' !! i = Some k.
Proof. exact axes_there_and_back. Qed.

(** [T] and [swapaxes] are such reorderings, so methods can be called before
    or after transposing; axis [a] is axis [-1 - a] of the transpose. *)
Theorem C95_swapaxes : forall y a1 a2 i j,
  valid y -> axis_is y a1 i -> axis_is y a2 j ->
  exists y' o, swapaxes y a1 a2 = Ok y' /\ axes_permuted o y y' /\
    forall k, k < length (llabel y) -> o !! k = Some (if decide (k = i) then j else if decide (k = j) then i else k).
Proof. exact swapaxes_permutes. Qed.
Theorem C95_T : forall y y', valid y ->
  (larry_T y = Ok y' <-> axes_permuted (reverse (seq 0 (length (llabel y)))) y y').
Proof. exact T_axes. Qed.
Theorem C95_T_cells : forall f y y', cell_method f -> valid y -> larry_T y = Ok y' ->
  both (fun z z' => larry_T z = Ok z') (f y) (f y').
Proof. exact T_cells. Qed.
Theorem C95_T_lanes : forall f y y' axis ax, lane_method f -> valid y -> larry_T y = Ok y' -> axis_is y axis ax ->
  both (fun z z' => larry_T z = Ok z') (f y axis) (f y' (-1 - axis)%Z).
Proof. exact T_lanes. Qed.
Theorem C95_T_reductions : forall f y y' axis ax, reduce_method f -> valid y -> larry_T y = Ok y' -> axis_is y axis ax ->
  both out_T (f y axis) (f y' (-1 - axis)%Z).
Proof. exact T_reductions. Qed.

(** Three axes in the order 1, 2, 0: summing away axis 0 of the one is summing
    away axis 2 of the other, and what is left is in the same order. *)
Definition exa : larry :=
  Larry (Nda DInt (Arr [2; 1; 3] (VInt <$> [1; 2; 3; 4; 5; 6]%Z))) [[LStr "a"; LStr "b"]; [LStr "u"]; [LInt 7; LInt 8; LInt 9]].
Definition exa' : larry :=
  Larry (Nda DInt (Arr [1; 3; 2] (VInt <$> [1; 4; 2; 5; 3; 6]%Z))) [[LStr "u"]; [LInt 7; LInt 8; LInt 9]; [LStr "a"; LStr "b"]].
Example C95_permuted_example : axes_permuted [1; 2; 0] exa exa'.
Proof.
  split_and!; [|solve_valid|done|done|].
  - simpl. apply perm_trans with [1; 0; 2]; [apply perm_skip, perm_swap|apply perm_swap].
  - intros ls Hg. repeat (match goal with H : Forall2 _ _ _ |- _ => inversion H; clear H; subst
      | H : _ ∈ _ |- _ => rewrite ?elem_of_cons, ?elem_of_nil in H; destruct_or? H; subst; try done
      | H : in_grid _ _ |- _ => unfold in_grid in H end); by vm_compute.
Qed.
Example C95_example :
  order_left 2 0 [1; 2; 0] = [0; 1] /\ order_left 0 1 [1; 2; 0] = [1; 0] /\
  larry_reduce RSum exa (Some 0%Z) = Ok (OLar (Larry (Nda DInt (Arr [1; 3] (VInt <$> [5; 7; 9]%Z))) [[LStr "u"]; [LInt 7; LInt 8; LInt 9]])) /\
  larry_reduce RSum exa' (Some 2%Z) = larry_reduce RSum exa (Some 0%Z) /\
  larry_reduce RSum exa' (Some 0%Z) = Ok (OLar (Larry (Nda DInt (Arr [3; 2] (VInt <$> [1; 4; 2; 5; 3; 6]%Z))) [[LInt 7; LInt 8; LInt 9]; [LStr "a"; LStr "b"]])) /\
  (y ← larry_T exm; larry_demean y (Some (-1)%Z)) = (z ← larry_demean exm (Some 0%Z); larry_T z) /\
  larry_cum SpecNum.CSum exm (Some 1%Z) ≫= larry_T = (y ← larry_T exm; larry_cum SpecNum.CSum y (Some (-2)%Z)) /\
  larry_reduce RMedian exa None = larry_reduce RMedian exa' None.
Proof. by_compute. Qed.

Print Assumptions C95_cells.
Print Assumptions C95_lanes.
Print Assumptions C95_reductions.
Print Assumptions C95_summaries.
Print Assumptions C95_normalisations.
Print Assumptions C95_unique.
Print Assumptions C95_back.
Print Assumptions C95_swapaxes.
Print Assumptions C95_T.
Print Assumptions C95_T_cells.
Print Assumptions C95_T_lanes.
Print Assumptions C95_T_reductions.
