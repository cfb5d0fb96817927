(** Property C84: true division (la/deflarry.py:739-896, la/flarry.py:1150). *)
From Verif Require Import DivFacts.
From Verif Require Import PropsLarry PropsAlign PropsOps.

(** C84: in Python 3 the elements are the quotients, for every dtype. *)
Theorem C84_larrys : forall y1 y2 z,
  valid y1 -> valid y2 -> larry_truediv Py3 y1 (OpLarry y2) = Ok z ->
  valid z /\ inner_labels y1 y2 z /\ ldtype z = DFloat /\
  forall ls v1 v2, cell y1 ls = Some v1 -> cell y2 ls = Some v2 ->
    exists n1 n2, to_num v1 = Some n1 /\ to_num v2 = Some n2 /\ cell z ls = Some (VFloat (num_div n1 n2)).
Proof. exact truediv_larry. Qed.
Theorem C84_scalar : forall y v z,
  valid y -> larry_truediv Py3 y (OpScalar v) = Ok z ->
  valid z /\ llabel z = llabel y /\ ldtype z = DFloat /\
  forall ls u, cell y ls = Some u -> exists n m, to_num u = Some n /\ to_num v = Some m /\ cell z ls = Some (VFloat (num_div n m)).
Proof. exact truediv_scalar. Qed.
Theorem C84_reflected : forall y v z,
  valid y -> larry_rtruediv Py3 y (OpScalar v) = Ok z ->
  valid z /\ llabel z = llabel y /\ ldtype z = DFloat /\
  forall ls u, cell y ls = Some u -> exists n m, to_num u = Some n /\ to_num v = Some m /\ cell z ls = Some (VFloat (num_div m n)).
Proof. exact rtruediv_scalar. Qed.
(** In Python 2 this holds if there is a float on one side ... *)
Theorem C84_python2_float : forall y o,
  valid y -> operand_valid o -> ldtype y = DFloat \/ has_float o ->
  larry_truediv Py2 y o = larry_truediv Py3 y o /\ larry_rtruediv Py2 y o = larry_rtruediv Py3 y o.
Proof. exact truediv_float. Qed.
(** ... and otherwise the result is that of [//]. *)
Theorem C84_python2_floor : forall y o,
  valid y -> operand_valid o -> ldtype y <> DFloat -> ~ has_float o ->
  larry_truediv Py2 y o = larry_arith AFloorDiv y o /\ larry_rtruediv Py2 y o = larry_rdivide AFloorDiv y o.
Proof. exact truediv_floor. Qed.
(** [larry([1, 2]) / 2], with [from __future__ import division] in the calling
    program, is [0, 1] in Python 2. *)
Theorem C84_python2_refuted : exists y z,
  valid y /\ larry_truediv Py2 y (OpScalar (VInt 2)) = Ok z /\
  exists ls u w n, cell y ls = Some u /\ cell z ls = Some w /\ to_num u = Some n /\ to_num w <> Some (num_div n (num_of_Z 2)).
Proof.
  exists ex2. eexists. split; [solve_valid|]. split; [vm_compute; reflexivity|].
  eexists [LStr "x"; LInt 7], _, _, _. split; [vm_compute; reflexivity|]. split; [vm_compute; reflexivity|]. split; [vm_compute; reflexivity|].
  intros H. apply (bool_decide_eq_true_2 _) in H. revert H. vm_compute. discriminate.
Qed.
Example C84_example :
  larry_truediv Py3 ex2 (OpScalar (VInt 2)) =
    Ok (Larry (Nda DFloat (Arr [2; 3] [VFloat (Fin (Q2Qc (1 # 2))); vf 1; VFloat (Fin (Q2Qc (3 # 2))); vf 2; VFloat (Fin (Q2Qc (5 # 2))); vf 3])) (llabel ex2)) /\
  larry_truediv Py2 ex2 (OpScalar (VInt 2)) = Ok (Larry (Nda DInt (Arr [2; 3] (VInt <$> [0; 1; 1; 2; 2; 3]%Z))) (llabel ex2)) /\
  larry_rtruediv Py2 ex2 (OpScalar (VFloat (num_of_Z 6))) =
    Ok (Larry (Nda DFloat (Arr [2; 3] [vf 6; vf 3; vf 2; VFloat (Fin (Q2Qc (3 # 2))); VFloat (Fin (Q2Qc (6 # 5))); vf 1])) (llabel ex2)).
Proof. by_compute. Qed.

Print Assumptions C84_larrys.
Print Assumptions C84_scalar.
Print Assumptions C84_reflected.
Print Assumptions C84_python2_float.
Print Assumptions C84_python2_floor.
Print Assumptions C84_python2_refuted.
