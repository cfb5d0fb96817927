(** Specification of functions that do not look ahead along an axis. *)
From Verif Require Export SpecMove.

(** [y] and [y'] have the same labels, and the same elements at the first [k]
    labels of the axis [ax]. *)
Definition agree_before (k ax : nat) (y y' : larry) : Prop :=
  llabel y' = llabel y /\
  forall l ls i x, llabel y !! ax = Some l -> l !! i = Some x -> i < k -> in_grid (delete ax (llabel y)) ls ->
    cell y' (with_label ax x ls) = cell y (with_label ax x ls).
(** The same for the numbers. *)
Definition agree_before_num (k ax : nat) (y y' : larry) : Prop :=
  llabel y' = llabel y /\
  forall l ls i x, llabel y !! ax = Some l -> l !! i = Some x -> i < k -> in_grid (delete ax (llabel y)) ls ->
    exists e e' n, cell y (with_label ax x ls) = Some e /\ cell y' (with_label ax x ls) = Some e' /\ to_num e = Some n /\ to_num e' = Some n.
(** The same elements from label number [k] on. *)
Definition agree_from (k ax : nat) (y y' : larry) : Prop :=
  llabel y' = llabel y /\
  forall l ls i x, llabel y !! ax = Some l -> l !! i = Some x -> k <= i -> in_grid (delete ax (llabel y)) ls ->
    cell y' (with_label ax x ls) = cell y (with_label ax x ls).
