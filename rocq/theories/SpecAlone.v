(** Specification of functions along an axis that do not mix lanes. *)
From Verif Require Export SpecSpan.

(** [y] and [y'] have the same labels, and the same elements in the lane along
    axis [ax] at the labels [ls] of the other axes. *)
Definition same_lane (ax : nat) (ls : list lab) (y y' : larry) : Prop :=
  llabel y' = llabel y /\ in_grid (delete ax (llabel y)) ls /\
  forall l x, llabel y !! ax = Some l -> x ∈ l -> cell y' (with_label ax x ls) = cell y (with_label ax x ls).
(** Both results are the same number at the labels [ls]. *)
Definition same_number_at (ls : list lab) (b b' : out) : Prop :=
  exists v v' n, at_out b ls v /\ at_out b' ls v' /\ to_num v = Some n /\ to_num v' = Some n.
(** The same as [same_lane], of the numbers that the elements are. *)
Definition same_lane_num (ax : nat) (ls : list lab) (y y' : larry) : Prop :=
  llabel y' = llabel y /\ in_grid (delete ax (llabel y)) ls /\
  forall l x, llabel y !! ax = Some l -> x ∈ l ->
    exists v v' n, cell y (with_label ax x ls) = Some v /\ cell y' (with_label ax x ls) = Some v' /\ to_num v = Some n /\ to_num v' = Some n.
