(** The labels among which [maxlabel] and [minlabel] choose. *)
From Verif Require Export Spec SpecOrder.

Definition looked_at (y : larry) (axis : option Z) (x : lab) : Prop :=
  exists ax l, llabel y !! ax = Some l /\ x ∈ l /\ match axis with None => True | Some a => axis_is y a ax end.
(** Labels that can be ordered among themselves. *)
Definition same_kind (l : list lab) : Prop := forall a b, a ∈ l -> b ∈ l -> a = b \/ orderable a b.
