(** Vocabulary for the laws of the operators between larrys. *)
From Verif Require Export SpecOps Ops.

(** NumPy adds two bool arrays by "or".  Three data types are unmixed when a
    sum of the three never adds two bool larrys by "or" before or after meeting
    a larry of numbers. *)
Definition unmixed (d1 d2 d3 : dtype) : Prop := (d1 = DBool -> d2 = DBool -> d3 = DBool) /\ (d2 = DBool -> d3 = DBool -> d1 = DBool).
(** No element is an infinity. *)
Definition no_infinite (y : larry) : Prop := forall ls v, cell y ls = Some v -> v <> VFloat PInf /\ v <> VFloat NInf.
(** No element is NaN. *)
Definition never_nan (y : larry) : Prop := forall ls, cell y ls <> Some (VFloat NaN).
(** The comparison that says the same when the operands change places. *)
Definition cmp_mirror (op : cmp_op) : cmp_op := match op with CEq => CEq | CNe => CNe | CLt => CGt | CGt => CLt | CLe => CGe | CGe => CLe end.
(** The comparison that says the opposite. *)
Definition cmp_not (op : cmp_op) : cmp_op := match op with CEq => CNe | CNe => CEq | CLt => CGe | CGt => CLe | CLe => CGt | CGe => CLt end.
(** "And" for "or" and the other way round. *)
Definition logic_other (op : logic_op) : logic_op := match op with LAnd => LOr | LOr => LAnd end.
