(** C97: laws of the operators between larrys. *)
From Verif Require Import PropsLarry PropsOps PropsNumeric.
From Verif Require Import SpecFacts SpecLaws LawsFacts LawsLogic.

(** [y1 + y2 = y2 + y1] and [y1 * y2 = y2 * y1], with the same errors. *)
Theorem C97_arith_commutes : forall op y1 y2 z, op = AAdd \/ op = AMul -> valid y1 -> valid y2 ->
  larry_arith op y1 (OpLarry y2) = Ok z -> larry_arith op y2 (OpLarry y1) = Ok z.
Proof. exact arith_commutes. Qed.
(** [(y1 + y2) + y3 = y1 + (y2 + y3)] and the same for [*]. *)
Theorem C97_arith_associates_partial : forall op y1 y2 y3 a z b,
  op = AAdd /\ unmixed (ldtype y1) (ldtype y2) (ldtype y3) \/ op = AMul -> valid y1 -> valid y2 -> valid y3 ->
  larry_arith op y1 (OpLarry y2) = Ok a -> larry_arith op a (OpLarry y3) = Ok z -> larry_arith op y2 (OpLarry y3) = Ok b ->
  larry_arith op y1 (OpLarry b) = Ok z.
Proof. exact arith_assoc. Qed.
(** [y1 * (y2 + y3) = y1 * y2 + y1 * y3]. *)
Theorem C97_arith_distributes_partial : forall y1 y2 y3 b z a c z',
  (ldtype y2 = DBool -> ldtype y3 = DBool -> ldtype y1 = DBool) -> no_infinite y1 -> valid y1 -> valid y2 -> valid y3 ->
  larry_arith AAdd y2 (OpLarry y3) = Ok b -> larry_arith AMul y1 (OpLarry b) = Ok z ->
  larry_arith AMul y1 (OpLarry y2) = Ok a -> larry_arith AMul y1 (OpLarry y3) = Ok c -> larry_arith AAdd a (OpLarry c) = Ok z' -> z = z'.
Proof. exact arith_distr. Qed.
(** [y1 - y2 = y1 + (-y2)]. *)
Theorem C97_subtraction : forall y1 y2 m z, valid y1 -> valid y2 -> ldtype y2 <> DBool -> larry_neg y2 = Ok m ->
  larry_arith ASub y1 (OpLarry y2) = Ok z -> larry_arith AAdd y1 (OpLarry m) = Ok z.
Proof. exact sub_is_add. Qed.
(** [y + 0], [y - 0] and [y * 1] are [y], and so is [y / 1] when [y] holds floats. *)
Theorem C97_units : forall y, valid y -> ldtype y = DFloat \/ ldtype y = DInt ->
  larry_arith AAdd y (OpScalar (VInt 0)) = Ok y /\ larry_arith ASub y (OpScalar (VInt 0)) = Ok y /\ larry_arith AMul y (OpScalar (VInt 1)) = Ok y /\
  (ldtype y = DFloat -> larry_arith ADiv y (OpScalar (VInt 1)) = Ok y).
Proof. exact scalar_units. Qed.
(** [y - y] has the labels of [y] in their order, zero for every finite number
    and NaN for the others. *)
Theorem C97_difference_of_itself : forall y z ls v, valid y -> ldtype y = DFloat \/ ldtype y = DInt ->
  larry_arith ASub y (OpLarry y) = Ok z -> cell y ls = Some v ->
  llabel z = llabel y /\ ldtype z = ldtype y /\
  cell z ls = Some (match v with VFloat (Fin _) => VFloat (num_of_Z 0) | VFloat _ => VFloat NaN | _ => VInt 0 end).
Proof. exact sub_self. Qed.
(** [y1 < y2] is [y2 > y1], and so on. *)
Theorem C97_comparison_mirrored : forall op y1 y2 o, valid y1 -> valid y2 -> same_kind (ldtype y1) (ldtype y2) ->
  larry_compare op y1 (OpLarry y2) = Ok o -> larry_compare (cmp_mirror op) y2 (OpLarry y1) = Ok o.
Proof. exact compare_mirror. Qed.
(** [y1 != y2] is [~(y1 == y2)]; [y1 >= y2] is [~(y1 < y2)] when nothing is NaN. *)
Theorem C97_comparison_inverted_partial : forall op y1 y2 z, valid y1 -> valid y2 -> arithmetic (ldtype y1) -> arithmetic (ldtype y2) ->
  op = CEq \/ op = CNe \/ (never_nan y1 /\ never_nan y2) ->
  larry_compare op y1 (OpLarry y2) = Ok (OLar z) -> exists z', larry_compare (cmp_not op) y1 (OpLarry y2) = Ok (OLar z') /\ larry_invert z = Ok z'.
Proof. exact compare_invert. Qed.
(** [&] and [|] commute, associate, distribute over each other, satisfy De
    Morgan's laws and leave a bool larry combined with itself alone. *)
Theorem C97_logic_commutes : forall op y1 y2 z, valid y1 -> valid y2 ->
  larry_logic op y1 (OpLarry y2) = Ok z -> larry_logic op y2 (OpLarry y1) = Ok z.
Proof. exact logic_comm. Qed.
Theorem C97_logic_associates : forall op y1 y2 y3 a z b, valid y1 -> valid y2 -> valid y3 ->
  larry_logic op y1 (OpLarry y2) = Ok a -> larry_logic op a (OpLarry y3) = Ok z -> larry_logic op y2 (OpLarry y3) = Ok b ->
  larry_logic op y1 (OpLarry b) = Ok z.
Proof. exact logic_assoc. Qed.
Theorem C97_logic_distributes : forall op y1 y2 y3 b z a c z', valid y1 -> valid y2 -> valid y3 ->
  larry_logic (logic_other op) y2 (OpLarry y3) = Ok b -> larry_logic op y1 (OpLarry b) = Ok z ->
  larry_logic op y1 (OpLarry y2) = Ok a -> larry_logic op y1 (OpLarry y3) = Ok c -> larry_logic (logic_other op) a (OpLarry c) = Ok z' -> z = z'.
Proof. exact logic_distr. Qed.
Theorem C97_logic_inverted : forall op y1 y2 z n1 n2 m, valid y1 -> valid y2 -> larry_logic op y1 (OpLarry y2) = Ok z ->
  larry_invert y1 = Ok n1 -> larry_invert y2 = Ok n2 -> larry_invert z = Ok m -> larry_logic (logic_other op) n1 (OpLarry n2) = Ok m.
Proof. exact logic_invert. Qed.
Theorem C97_logic_itself : forall op y z, valid y -> ldtype y = DBool -> larry_logic op y (OpLarry y) = Ok z -> z = y.
Proof. exact logic_same. Qed.

(** * Examples and counterexamples *)
Definition vec (dt : dtype) (l : list (lab * val)) : larry := Larry (Nda dt (Arr [length l] (snd <$> l))) [fst <$> l].
Definition lw1 := vec DFloat [(LStr "c", vf 1); (LStr "a", VFloat NaN); (LStr "b", vf 3)].
Definition lw2 := vec DFloat [(LStr "b", vf 10); (LStr "c", vf 20); (LStr "a", vf 30)].
Definition lw3 := vec DInt [(LStr "c", VInt 5); (LStr "b", VInt 7); (LStr "d", VInt 9)].
Definition lwb := vec DBool [(LStr "c", VBool true); (LStr "a", VBool true); (LStr "b", VBool false)].
Definition lwb2 := vec DBool [(LStr "a", VBool false); (LStr "b", VBool false); (LStr "c", VBool true)].
Definition lwi := vec DFloat [(LStr "a", VFloat PInf)].
Definition la (z : Z) := vec DFloat [(LStr "a", vf z)].
Example C97_valid_ex : valid lw1 /\ valid lw2 /\ valid lw3 /\ valid lwb /\ valid lwb2 /\ valid lwi /\ valid (la 2) /\ unmixed DFloat DFloat DInt /\ no_infinite lw1.
Proof. split_and!; try solve_valid; try done. apply no_infinite_data; [solve_valid|]. by repeat constructor. Qed.
Example C97_arith_ex :
  larry_arith AAdd lw1 (OpLarry lw2) = Ok (vec DFloat [(LStr "a", VFloat NaN); (LStr "b", vf 13); (LStr "c", vf 21)]) /\
  larry_arith AAdd lw2 (OpLarry lw1) = larry_arith AAdd lw1 (OpLarry lw2) /\
  (a ← larry_arith AMul lw1 (OpLarry lw2); larry_arith AMul a (OpLarry lw3)) = Ok (vec DFloat [(LStr "b", vf 210); (LStr "c", vf 100)]) /\
  (b ← larry_arith AMul lw2 (OpLarry lw3); larry_arith AMul lw1 (OpLarry b)) = Ok (vec DFloat [(LStr "b", vf 210); (LStr "c", vf 100)]) /\
  (b ← larry_arith AAdd lw2 (OpLarry lw3); larry_arith AMul lw1 (OpLarry b)) = Ok (vec DFloat [(LStr "b", vf 51); (LStr "c", vf 25)]) /\
  (a ← larry_arith AMul lw1 (OpLarry lw2); c ← larry_arith AMul lw1 (OpLarry lw3); larry_arith AAdd a (OpLarry c)) = Ok (vec DFloat [(LStr "b", vf 51); (LStr "c", vf 25)]) /\
  larry_arith ASub lw2 (OpLarry lw3) = Ok (vec DFloat [(LStr "b", vf 3); (LStr "c", vf 15)]) /\
  (m ← larry_neg lw3; larry_arith AAdd lw2 (OpLarry m)) = larry_arith ASub lw2 (OpLarry lw3) /\
  larry_arith ASub lw1 (OpLarry lw1) = Ok (vec DFloat [(LStr "c", vf 0); (LStr "a", VFloat NaN); (LStr "b", vf 0)]).
Proof. by_compute. Qed.
Example C97_logic_ex :
  larry_compare CLt lw1 (OpLarry lw2) = Ok (OLar (vec DBool [(LStr "a", VBool false); (LStr "b", VBool true); (LStr "c", VBool true)])) /\
  larry_compare CGt lw2 (OpLarry lw1) = larry_compare CLt lw1 (OpLarry lw2) /\
  larry_compare CGe lw2 (OpLarry lw3) = Ok (OLar (vec DBool [(LStr "b", VBool true); (LStr "c", VBool true)])) /\
  larry_compare CLt lw2 (OpLarry lw3) = Ok (OLar (vec DBool [(LStr "b", VBool false); (LStr "c", VBool false)])) /\
  larry_logic LAnd lwb (OpLarry lwb2) = Ok (vec DBool [(LStr "a", VBool false); (LStr "b", VBool false); (LStr "c", VBool true)]) /\
  larry_logic LOr lwb (OpLarry lwb2) = Ok (vec DBool [(LStr "a", VBool true); (LStr "b", VBool false); (LStr "c", VBool true)]) /\
  (n1 ← larry_invert lwb; n2 ← larry_invert lwb2; larry_logic LOr n1 (OpLarry n2)) = Ok (vec DBool [(LStr "a", VBool true); (LStr "b", VBool true); (LStr "c", VBool false)]) /\
  larry_logic LOr lwb (OpLarry lwb) = Ok lwb.
Proof. by_compute. Qed.

(** True + True is True for bool larrys, so [(t + t) + 1] is 2 and [t + (t + 1)]
    is 3. *)
Theorem C97_add_bool_refuted : exists y1 y2 y3 a z b z', valid y1 /\ valid y2 /\ valid y3 /\
  larry_arith AAdd y1 (OpLarry y2) = Ok a /\ larry_arith AAdd a (OpLarry y3) = Ok z /\
  larry_arith AAdd y2 (OpLarry y3) = Ok b /\ larry_arith AAdd y1 (OpLarry b) = Ok z' /\ z <> z'.
Proof.
  set (t := vec DBool [(LStr "a", VBool true)]). set (i k := vec DInt [(LStr "a", VInt k)]). exists t, t, (i 1%Z), t, (i 2%Z), (i 2%Z), (i 3%Z).
  split_and!; try solve_valid; try by vm_compute.
Qed.
(** [inf * (2 + -1)] is an infinity, [inf * 2 + inf * -1] is NaN. *)
Theorem C97_distribute_inf_refuted : exists y1 y2 y3 b z a c z', valid y1 /\ valid y2 /\ valid y3 /\
  ldtype y1 = DFloat /\ ldtype y2 = DFloat /\ ldtype y3 = DFloat /\
  larry_arith AAdd y2 (OpLarry y3) = Ok b /\ larry_arith AMul y1 (OpLarry b) = Ok z /\
  larry_arith AMul y1 (OpLarry y2) = Ok a /\ larry_arith AMul y1 (OpLarry y3) = Ok c /\ larry_arith AAdd a (OpLarry c) = Ok z' /\ z <> z'.
Proof.
  exists lwi, (la 2), (la (-1)), (la 1), lwi, lwi, (vec DFloat [(LStr "a", VFloat NInf)]), (vec DFloat [(LStr "a", VFloat NaN)]).
  split_and!; try solve_valid; try by vm_compute.
Qed.
(** NaN is neither less than a number nor greater than or equal to it. *)
Theorem C97_comparison_nan_refuted : exists y1 y2 z z', valid y1 /\ valid y2 /\ larry_compare CLt y1 (OpLarry y2) = Ok (OLar z) /\
  larry_compare CGe y1 (OpLarry y2) = Ok (OLar z') /\ larry_invert z <> Ok z'.
Proof.
  exists (vec DFloat [(LStr "a", VFloat NaN)]), (la 1), (vec DBool [(LStr "a", VBool false)]), (vec DBool [(LStr "a", VBool false)]).
  split_and!; try solve_valid; try by vm_compute.
Qed.

Print Assumptions C97_arith_commutes.
Print Assumptions C97_arith_associates_partial.
Print Assumptions C97_arith_distributes_partial.
Print Assumptions C97_subtraction.
Print Assumptions C97_units.
Print Assumptions C97_difference_of_itself.
Print Assumptions C97_comparison_mirrored.
Print Assumptions C97_comparison_inverted_partial.
Print Assumptions C97_logic_commutes.
Print Assumptions C97_logic_associates.
Print Assumptions C97_logic_distributes.
Print Assumptions C97_logic_inverted.
Print Assumptions C97_logic_itself.
Print Assumptions C97_add_bool_refuted.
Print Assumptions C97_distribute_inf_refuted.
Print Assumptions C97_comparison_nan_refuted.
