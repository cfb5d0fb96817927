(** Specification of a larry without some labels at which everything is missing. *)
From Verif Require Export SpecSpan.

(** [y'] is [y] without some labels of axis [ax] at which all elements are missing. *)
Definition thinned (ax : nat) (y y' : larry) : Prop :=
  exists (P : lab -> Prop) l l', llabel y !! ax = Some l /\ kept P l l' /\ llabel y' = <[ax := l']> (llabel y) /\
  forall ls x, in_grid (delete ax (llabel y)) ls -> x ∈ l ->
    (P x -> cell y' (with_label ax x ls) = cell y (with_label ax x ls)) /\
    (~ P x -> cell y (with_label ax x ls) = Some (VFloat NaN)).
(** Both results are the same number everywhere. *)
Definition same_numbers_out (labels : list (list lab)) (b b' : out) : Prop :=
  forall ls, in_grid labels ls -> exists v v' n, at_out b ls v /\ at_out b' ls v' /\ to_num v = Some n /\ to_num v' = Some n.
(** Both have the same elements at the labels of [z']. *)
Definition same_where_kept (z z' : larry) : Prop := forall ls, in_grid (llabel z') ls -> cell z ls = cell z' ls.
