(** Specification of the order of larrys. *)
From Verif Require Export SpecFarray SpecMove.

(** Both missing, or in order. *)
Definition at_most (m n : num) : Prop := m = NaN /\ n = NaN \/ num_le m n.
(** The same labels, and every element of [y] at most that of [z]; missing
    elements at the same labels. *)
Definition larry_at_most (y z : larry) : Prop :=
  llabel y = llabel z /\
  forall ls, in_grid (llabel y) ls -> exists u v m n, cell y ls = Some u /\ cell z ls = Some v /\ to_num u = Some m /\ to_num v = Some n /\ at_most m n.
Definition out_at_most (a b : out) : Prop :=
  match a, b with
  | OVal u, OVal v => exists m n, to_num u = Some m /\ to_num v = Some n /\ at_most m n
  | OLar y, OLar z => larry_at_most y z
  | _, _ => False
  end.
