(** Specification of the extreme groupings: all labels in one group, and every
    label in a group of its own. *)
From Verif Require Export SpecGroup.
From Verif Require Export SpecSpan.

(** All groups are the same; no two are. *)
Definition all_one_group (gs : list val) : Prop := forall g g', g ∈ gs -> g' ∈ gs -> group_eq g g'.
Definition own_groups (gs : list val) : Prop :=
  (forall g, g ∈ gs -> group_eq g g) /\ forall i j g g', gs !! i = Some g -> gs !! j = Some g' -> group_eq g g' -> i = j.
(** [z] holds the statistic [b] along axis [ax] at every label of the axis. *)
Definition spread (y : larry) (ax : nat) (z : larry) (b : out) : Prop :=
  valid z /\ ldtype z = DFloat /\ llabel z = llabel y /\
  exists l, llabel y !! ax = Some l /\
  forall ls x, in_grid (delete ax (llabel y)) ls -> x ∈ l ->
    exists n v, cell z (with_label ax x ls) = Some (VFloat n) /\ at_out b ls v /\ to_num v = Some n.
(** [z] is zero where [y] has an element, and missing where [y] has none. *)
Definition zero_where_present (y z : larry) : Prop :=
  valid z /\ ldtype z = DFloat /\ llabel z = llabel y /\
  forall ls, in_grid (llabel y) ls -> exists v n, cell y ls = Some v /\ to_num v = Some n /\
    cell z ls = Some (VFloat (if decide (n = NaN) then NaN else num_of_Z 0)).
