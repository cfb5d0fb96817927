(** Specification of statistics of a whole and of its parts. *)
From Verif Require Export SpecFarray SpecMove LarryMove.
From Verif Require Export SpecBounds.

(** [m] is the statistic of all numbers if [m1] and [m2] are those of the two
    parts; NaN where a part has no number. *)
Definition pooled (op : red_op) (m1 m2 m : num) : Prop :=
  m1 = NaN /\ m = m2 \/ m2 = NaN /\ m = m1 \/
  m1 <> NaN /\ m2 <> NaN /\
  match op with
  | RSum => m = num_add m1 m2
  | RMin => (m = m1 \/ m = m2) /\ num_le m m1 /\ num_le m m2
  | RMax => (m = m1 \/ m = m2) /\ num_le m1 m /\ num_le m2 m
  | _ => False
  end.
(** Every label of the axis satisfies exactly one of two conditions, and both
    are satisfied by some label. *)
Definition complementary (op1 op2 : label_op) (l : list lab) : Prop :=
  (forall z, z ∈ l -> op_holds op1 z /\ ~ op_holds op2 z \/ op_holds op2 z /\ ~ op_holds op1 z) /\ (exists z, z ∈ l /\ op_holds op1 z) /\ (exists z, z ∈ l /\ op_holds op2 z).
(** The two sides of a comparison. *)
Definition opposite (op1 op2 : label_op) : Prop :=
  (exists v, op1 = KLt v /\ op2 = KGe v) \/ (exists v, op1 = KLe v /\ op2 = KGt v) \/ (exists v, op1 = KEq v /\ op2 = KNe v) \/ (exists v, op1 = KIn v /\ op2 = KNotIn v).
