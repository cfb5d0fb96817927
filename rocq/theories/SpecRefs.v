(** Copies and references: specification for Refs.v. *)
From Verif Require Export Refs.

(** What is known about [larry1.x is larry2.x]: one array object has one
    buffer and one set of positions, and a larry has one array. *)
Definition identity (h : heap) (p q : nat) (same : bool) : Prop :=
  (same = true -> o_x <$> h_objs h !! p = o_x <$> h_objs h !! q) /\ (p = q -> same = true).
(** The list of labels along an axis is the object [i]. *)
Definition list_at (h : heap) (p ax i : nat) : Prop :=
  exists ob is, h_objs h !! p = Some ob /\ h_outers h !! o_label ob = Some is /\ is !! ax = Some i.
