(** C107: the statistics of a larry from those of two parts of it. *)
From Verif Require Import LawsFacts Numeric SpecFacts PropsOps PropsNumeric PropsLarry PropsAlign.
From Verif Require Import PartsFacts Parts2Facts.

Theorem C107_whole : forall op y op1 op2 a ax l y1 y2 axis,
  op = RSum \/ op = RMin \/ op = RMax ->
  valid y -> nonempty y -> arithmetic (ldtype y) -> axis_is y a ax -> llabel y !! ax = Some l -> complementary op1 op2 l ->
  keep_label y op1 (Some a) = Ok y1 -> keep_label y op2 (Some a) = Ok y2 -> (op = RSum -> no_inf y) -> axis = None \/ axis = Some a ->
  exists b1 b2 b, larry_reduce op y1 axis = Ok b1 /\ larry_reduce op y2 axis = Ok b2 /\ larry_reduce op y axis = Ok b /\
    three_related (pooled op) b1 b2 b.
Proof. exact keep_pooled. Qed.
(** Conditions that split the labels of an axis. *)
Theorem C107_conditions : forall op1 op2 l,
  opposite op1 op2 -> (exists z, z ∈ l /\ op_holds op1 z) -> (exists z, z ∈ l /\ ~ op_holds op1 z) -> complementary op1 op2 l.
Proof. exact opposite_conditions. Qed.
(** Merging the parts gives the whole, with the labels of the axis sorted. *)
Theorem C107_merge : forall y op1 op2 a ax l y1 y2 update,
  valid y -> no_inf y -> axis_is y a ax -> llabel y !! ax = Some l -> complementary op1 op2 l ->
  keep_label y op1 (Some a) = Ok y1 -> keep_label y op2 (Some a) = Ok y2 -> all_comparable l ->
  exists z u, larry_merge y1 y2 update = Ok z /\ valid z /\ ldtype z = missing_dtype (ldtype y) /\
    llabel z = <[ax := u]> (llabel y) /\ u ≡ₚ l /\ StronglySorted lab_lt u /\
    forall ls, cell z ls = cast_to (ldtype z) <$> cell y ls.
Proof. exact merge_parts. Qed.

Example C107_example :
  complementary (KLt (LInt 7)) (KGe (LInt 7)) [LInt 7; LInt 9; LInt 5] /\
  (y ← keep_label ex2 (KLt (LInt 7)) (Some 1%Z); larry_reduce RSum y (Some 1%Z)) = Ok (OLar (Larry (Nda DInt (Arr [2] (VInt <$> [3; 6]%Z))) [[LStr "x"; LStr "y"]])) /\
  (y ← keep_label ex2 (KGe (LInt 7)) (Some 1%Z); larry_reduce RSum y (Some 1%Z)) = Ok (OLar (Larry (Nda DInt (Arr [2] (VInt <$> [3; 9]%Z))) [[LStr "x"; LStr "y"]])) /\
  larry_reduce RSum ex2 (Some 1%Z) = Ok (OLar (Larry (Nda DInt (Arr [2] (VInt <$> [6; 15]%Z))) [[LStr "x"; LStr "y"]])) /\
  (y ← keep_label ex2 (KEq (LStr "y")) (Some 0%Z); larry_reduce RMin y None) = Ok (OVal (VInt 4)) /\
  (y ← keep_label ex2 (KNe (LStr "y")) (Some 0%Z); larry_reduce RMin y None) = Ok (OVal (VInt 1)) /\
  larry_reduce RMin ex2 None = Ok (OVal (VInt 1)) /\
  (y1 ← keep_label ex2 (KLe (LInt 7)) (Some 1%Z); y2 ← keep_label ex2 (KGt (LInt 7)) (Some 1%Z); larry_merge y2 y1 false) =
    Ok (Larry (Nda DFloat (Arr [2; 3] ((fun z : Z => VFloat (Fin (Q2Qc (inject_Z z)))) <$> [3; 1; 2; 6; 4; 5]%Z))) [[LStr "x"; LStr "y"]; [LInt 5; LInt 7; LInt 9]]).
Proof.
  split.
  { apply C107_conditions; [left; eauto|exists (LInt 5)|exists (LInt 9)]; split; try (vm_compute; done).
    - apply elem_of_list_lookup. by exists 2.
    - apply elem_of_list_lookup. by exists 1. }
  by_compute.
Qed.

Print Assumptions C107_whole.
Print Assumptions C107_conditions.
Print Assumptions C107_merge.
