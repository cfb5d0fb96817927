(** Specification of two groupings with the same groups under other names. *)
From Verif Require Export SpecGroup.

(** [gs] and [gs'] put the same places in the same group, and leave the same
    places without a group. *)
Definition same_partition (gs gs' : list val) : Prop :=
  length gs' = length gs /\
  forall i j g h g' h', gs !! i = Some g -> gs !! j = Some h -> gs' !! i = Some g' -> gs' !! j = Some h' -> (group_eq g h <-> group_eq g' h').
(** [y] and [y'] have the same labels and the same elements at the labels of the
    axis [ax] that [group] puts in the group [h]. *)
Definition agree_in (group : larry) (h : val) (ax : nat) (y y' : larry) : Prop :=
  llabel y' = llabel y /\
  forall l ls x g, llabel y !! ax = Some l -> x ∈ l -> in_grid (delete ax (llabel y)) ls -> cell group [x] = Some g -> group_eq h g ->
    cell y' (with_label ax x ls) = cell y (with_label ax x ls).
