(** C102: elements and exact arithmetic. *)
From Verif Require Import Limit2Facts.
From Verif Require Import Larry Ops PropsLarry PropsOps SpecFacts.

(** The sum, difference, product and quotient of two elements is the limit of
    exact arithmetic with numbers approaching them, and NaN if there is no
    limit. *)
Theorem C102_arith : forall op y1 y2 z ls v1 v2 a b,
  valid y1 -> valid y2 -> larry_arith op y1 (OpLarry y2) = Ok z -> cell y1 ls = Some v1 -> cell y2 ls = Some v2 ->
  reads v1 a -> reads v2 b -> exact_for op v1 v2 ->
  exists v c, cell z ls = Some v /\ reads v c /\ limit_or_nan (exact_op op) (second_operand op) a b c.
Proof. exact arith_exact. Qed.
Theorem C102_scalar : forall op y w z ls v a b,
  valid y -> larry_arith op y (OpScalar w) = Ok z -> cell y ls = Some v -> reads v a -> reads w b -> exact_for op v w ->
  exists u c, cell z ls = Some u /\ reads u c /\ limit_or_nan (exact_op op) (second_operand op) a b c.
Proof. exact scalar_exact. Qed.
Theorem C102_floor : forall y1 y2 z ls v1 v2 a b,
  valid y1 -> valid y2 -> ldtype y1 = DFloat \/ ldtype y2 = DFloat -> larry_arith AFloorDiv y1 (OpLarry y2) = Ok z ->
  cell y1 ls = Some v1 -> cell y2 ls = Some v2 -> reads v1 a -> reads v2 b ->
  exists d c, cell z ls = Some (VFloat c) /\ limit_or_nan Qdiv divisor a b d /\ rounded_down d c.
Proof. exact floor_exact. Qed.
Theorem C102_int : forall op y1 y2 z ls a b,
  valid y1 -> valid y2 -> ldtype y1 = DInt -> ldtype y2 = DInt -> op <> ADiv -> larry_arith op y1 (OpLarry y2) = Ok z ->
  cell y1 ls = Some (VInt a) -> cell y2 ls = Some (VInt b) -> exists c, cell z ls = Some (VInt c) /\ int_op op a b c.
Proof. exact arith_int. Qed.
Theorem C102_compare : forall op y1 y2 z ls v1 v2 a b,
  valid y1 -> valid y2 -> arithmetic (ldtype y1) -> arithmetic (ldtype y2) -> larry_compare op y1 (OpLarry y2) = Ok (OLar z) ->
  cell y1 ls = Some v1 -> cell y2 ls = Some v2 -> reads v1 a -> reads v2 b ->
  exists t, cell z ls = Some (VBool t) /\ (t = true <-> compares op a b).
Proof. exact compare_exact. Qed.
(** What [set] stores: decimals are dropped in an int larry, everything but
    zero, None and the empty string is true in a bool larry. *)
Theorem C102_set : forall y ls v z, valid y -> larry_set y ls v = Ok z -> exists w, cell z ls = Some w /\ assigned (ldtype y) v w.
Proof. exact set_assigned. Qed.
Theorem C102_set_iff : forall y ls v, valid y -> in_grid (llabel y) ls ->
  (exists z, larry_set y ls v = Ok z) <-> exists w, assigned (ldtype y) v w.
Proof. exact set_assigned_iff. Qed.

(** The numbers 1, 2, 3, ... approach infinity, their inverses 0. *)
Example C102_approach_example :
  approaches (fun n => inject_Z (Z.of_nat n + 1)) PInf /\ approaches (fun n => / inject_Z (Z.of_nat n + 1))%Q (Fin 0%Qc).
Proof. split; [apply up_approaches|apply inv_up]. Qed.
Example C102_example :
  let f xs := Larry (Nda DFloat (Arr [5] (VFloat <$> xs))) [[LInt 0; LInt 1; LInt 2; LInt 3; LInt 4]] in
  let one := num_of_Z 1 in let zero := num_of_Z 0 in
  larry_arith AAdd (f [PInf; NInf; one; NaN; PInf]) (OpLarry (f [NInf; one; one; one; PInf])) = Ok (f [NaN; NInf; num_of_Z 2; NaN; PInf]) /\
  larry_arith ADiv (f [PInf; NInf; one; zero; one]) (OpLarry (f [NInf; zero; zero; zero; NInf])) = Ok (f [NaN; NInf; PInf; NaN; zero]) /\
  larry_arith AMul (f [PInf; NInf; one; zero; PInf]) (OpLarry (f [NInf; zero; zero; one; num_of_Z (-2)])) = Ok (f [NInf; NaN; zero; zero; NInf]).
Proof. cbv zeta. by_compute. Qed.
Example C102_set_example :
  let y := Larry (Nda DInt (Arr [2] [VInt 1; VInt 2])) [[LInt 0; LInt 1]] in
  larry_set y [LInt 0] (VFloat (num_div (num_of_Z (-5)) (num_of_Z 2))) = Ok (Larry (Nda DInt (Arr [2] [VInt (-2); VInt 2])) [[LInt 0; LInt 1]]) /\
  larry_set y [LInt 0] (VFloat NaN) = Err ValueError /\
  larry_arith AFloorDiv y (OpScalar (VInt (-2))) = Ok (Larry (Nda DInt (Arr [2] [VInt (-1); VInt (-1)])) [[LInt 0; LInt 1]]) /\
  larry_compare CLe y (OpLarry y) = Ok (OLar (Larry (Nda DBool (Arr [2] [VBool true; VBool true])) [[LInt 0; LInt 1]])).
Proof. cbv zeta. by_compute. Qed.

Print Assumptions C102_arith.
Print Assumptions C102_scalar.
Print Assumptions C102_floor.
Print Assumptions C102_int.
Print Assumptions C102_compare.
Print Assumptions C102_set.
Print Assumptions C102_set_iff.
