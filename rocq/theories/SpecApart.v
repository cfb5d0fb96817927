(** Specification of computing the groups one at a time. *)
From Verif Require Export SpecOneGroup SpecThin.

(** The label [x] is in the group [h]. *)
Definition in_group (group : larry) (h : val) (x : lab) : Prop := exists g, cell group [x] = Some g /\ group_eq h g.
(** [y'] is [y] with only the labels of axis [ax] that are in the group [h]. *)
Definition group_part (group : larry) (h : val) (ax : nat) (y y' : larry) : Prop :=
  exists l l', llabel y !! ax = Some l /\ kept (in_group group h) l l' /\ llabel y' = <[ax := l']> (llabel y) /\
  forall ls, in_grid (llabel y') ls -> cell y' ls = cell y ls.
(** [z] holds at all labels of [y'] the statistic [b] along axis [ax]. *)
Definition spread_over (y' : larry) (ax : nat) (z : larry) (b : out) : Prop :=
  forall ls, in_grid (llabel y') ls -> exists n v, cell z ls = Some (VFloat n) /\ at_out b (delete ax ls) v /\ to_num v = Some n.
