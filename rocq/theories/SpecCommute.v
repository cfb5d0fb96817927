(** Parts of a larry along one axis. *)
From Verif Require Export Spec.

(** [y'] is the part of [y] at the labels [l'] of axis [a0], in the order of
    [l']. *)
Definition part_of (y : larry) (a0 : nat) (l' : list lab) (y' : larry) : Prop :=
  valid y' /\ ldtype y' = ldtype y /\
  (exists l, llabel y !! a0 = Some l /\ forall x, x ∈ l' -> x ∈ l) /\
  llabel y' = <[a0 := l']> (llabel y) /\
  forall ls, in_grid (llabel y') ls -> cell y' ls = cell y ls.
(** The number of an axis after axis [ax] is gone. *)
Definition axis_left (ax a0 : nat) : nat := if decide (a0 < ax) then a0 else a0 - 1.
