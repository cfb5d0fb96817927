(** Specification of skipped elements of moving sums and of the steps of
    running totals. *)
From Verif Require Export SpecFarray SpecMove.

(** [zs] is [z] moved [s] labels down the axis [ax], missing at the first [s]. *)
Definition moved_down (s ax : nat) (z zs : larry) : Prop :=
  valid z /\ valid zs /\ llabel zs = llabel z /\
  exists l, llabel z !! ax = Some l /\
  forall ls i x, in_grid (delete ax (llabel z)) ls -> l !! i = Some x ->
    (i < s -> cell zs (with_label ax x ls) = Some (VFloat NaN)) /\
    (forall x', l !! (i + s) = Some x' -> cell zs (with_label ax x' ls) = cell z (with_label ax x ls)).
(** [z] begins with the elements of [y] along the axis and grows by [f] from
    one label to the next, where both have an element. *)
Definition grows_by (f : num -> num -> num) (y : larry) (ax : nat) (z : larry) : Prop :=
  valid z /\ llabel z = llabel y /\
  exists l, llabel y !! ax = Some l /\
  forall ls i x, in_grid (delete ax (llabel y)) ls -> l !! i = Some x ->
    exists e c n m, cell y (with_label ax x ls) = Some e /\ cell z (with_label ax x ls) = Some c /\ to_num e = Some n /\ to_num c = Some m /\
      (n = NaN -> m = NaN) /\ (i = 0 -> m = n) /\
      forall x' e' c' n' m', l !! S i = Some x' -> cell y (with_label ax x' ls) = Some e' -> cell z (with_label ax x' ls) = Some c' ->
        to_num e' = Some n' -> to_num c' = Some m' -> n <> NaN -> n' <> NaN -> m' = f m n'.
