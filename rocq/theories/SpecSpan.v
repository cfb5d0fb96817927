(** Specification of windows as wide as the data and of windows of one element. *)
From Verif Require Export SpecFarray SpecMove Moving.

(** The element of a result at labels; a scalar has no labels. *)
Definition at_out (o : out) (ls : list lab) (v : val) : Prop :=
  match o with OLar y => cell y ls = Some v | OVal u => ls = [] /\ v = u end.
(** [z] holds the statistic [b] along axis [ax] at the last label of the axis,
    and is missing at all others. *)
Definition last_only (y : larry) (ax : nat) (z : larry) (b : out) : Prop :=
  valid z /\ ldtype z = DFloat /\ llabel z = llabel y /\
  exists l, llabel y !! ax = Some l /\
  forall ls i x, in_grid (delete ax (llabel y)) ls -> l !! i = Some x ->
    exists n, cell z (with_label ax x ls) = Some (VFloat n) /\ (S i < length l -> n = NaN) /\
      (S i = length l -> exists v, at_out b ls v /\ to_num v = Some n).
(** [z] holds the elements of [y] as floats. *)
Definition as_floats (y z : larry) : Prop :=
  valid z /\ ldtype z = DFloat /\ llabel z = llabel y /\
  forall ls, in_grid (llabel y) ls -> exists v n, cell y ls = Some v /\ to_num v = Some n /\ cell z ls = Some (VFloat n).
(** [z] holds the total [b] along axis [ax] at the last label of the axis,
    unless the element there is missing. *)
Definition ends_in (y : larry) (ax : nat) (z : larry) (b : out) : Prop :=
  valid z /\ llabel z = llabel y /\
  exists l, llabel y !! ax = Some l /\
  forall ls x, in_grid (delete ax (llabel y)) ls -> last l = Some x ->
    exists e v n m, cell y (with_label ax x ls) = Some e /\ to_num e = Some n /\ cell z (with_label ax x ls) = Some v /\ to_num v = Some m /\
      (n = NaN -> m = NaN) /\ (n <> NaN -> exists u, at_out b ls u /\ to_num u = Some m).
(** Which statistic a moving statistic is. *)
Inductive moving_version : move_stat -> red_op -> Prop :=
  | mv_sum : moving_version MSum RSum | mv_mean : moving_version MMean RMean | mv_min : moving_version MMin RMin | mv_max : moving_version MMax RMax.
