(** Property C83: conversion of dtypes (la/deflarry.py). *)
From Verif Require Import AstypeFacts SpecFacts.
From Verif Require Import PropsLarry PropsAlign PropsOps PropsNumeric PropsIndex PropsFarray.

(** Floats, ints and bools keep labels and values; to int, fractions are cut
    off; to bool, all but zero is true.  To int there must be no NaN and no
    infinity. *)
Theorem C83_astype : forall y dt,
  valid y -> number_larry y -> dt <> DStr -> (dt = DInt -> all_finite y) ->
  exists z, larry_astype y dt = Ok z /\ in_dtype dt y z.
Proof. exact astype_total. Qed.
Theorem C83_same : forall y, larry_astype y (ldtype y) = Ok y.
Proof. exact astype_same. Qed.
Theorem C83_object : forall y,
  exists z, larry_astype y DObj = Ok z /\ ldtype z = DObj /\ larr z = larr y /\ llabel z = llabel y.
Proof. exact astype_object. Qed.
Theorem C83_int_float_int : forall y,
  valid y -> ldtype y = DInt -> (z ← larry_astype y DFloat; larry_astype z DInt) = Ok y.
Proof. exact astype_int_float. Qed.
Theorem C83_float_int_float : forall y,
  valid y -> ldtype y = DFloat -> ((z ← larry_astype y DInt; larry_astype z DFloat) = Ok y <-> all_whole y).
Proof. exact astype_float_int. Qed.
Theorem C83_bool_back : forall y dt,
  valid y -> ldtype y = DBool -> dt = DInt \/ dt = DFloat -> (z ← larry_astype y dt; larry_astype z DBool) = Ok y.
Proof. exact astype_bool_back. Qed.
Theorem C83_bool_int_float : forall y,
  valid y -> ldtype y = DBool -> (z ← larry_astype y DInt; larry_astype z DFloat) = larry_astype y DFloat.
Proof. exact astype_bool_float. Qed.
(** The argument of the constructor is astype of the larry. *)
Theorem C83_constructor : forall x label,
  make_dtype x label None = make x label /\
  (forall y dt, make x label = Ok y -> make_dtype x label (Some dt) = larry_astype y dt) /\
  (forall e dt y, make x label = Err e -> make_dtype x label (Some dt) <> Ok y).
Proof.
  intros x label. exact (conj eq_refl (conj (fun y dt => make_dtype_ok x label dt y) (fun e dt y => make_dtype_err x label dt e y))).
Qed.
Definition exw1 : larry := Larry (Nda DFloat (Arr [2] [VFloat NaN; VFloat NInf])) [[LInt 0; LInt 1]].
Example C83_example :
  let y := Larry (Nda DFloat (Arr [4] [vf 1; vq 5 2; vq (-5) 2; vf 0])) [[LInt 0; LInt 1; LInt 2; LInt 3]] in
  let r dt vs := Ok (Larry (Nda dt (Arr [4] vs)) (llabel y)) in
  valid y /\
  larry_astype y DInt = r DInt [VInt 1; VInt 2; VInt (-2); VInt 0] /\
  larry_astype y DBool = r DBool [VBool true; VBool true; VBool true; VBool false] /\
  larry_astype y DObj = r DObj (data (larr y)) /\
  larry_astype exw1 DBool = Ok (Larry (Nda DBool (Arr [2] [VBool true; VBool true])) (llabel exw1)) /\
  (z ← larry_astype ex2 DFloat; larry_astype z DInt) = Ok ex2 /\
  (z ← larry_astype y DInt; larry_astype z DFloat) <> Ok y /\
  make_dtype (Nda DInt (Arr [3] [VInt 0; VInt 1; VInt 2])) None (Some DBool) =
    Ok (Larry (Nda DBool (Arr [3] [VBool false; VBool true; VBool true])) [[LInt 0; LInt 1; LInt 2]]).
Proof. cbv zeta. by_compute. Qed.

Print Assumptions C83_astype.
Print Assumptions C83_same.
Print Assumptions C83_object.
Print Assumptions C83_int_float_int.
Print Assumptions C83_float_int_float.
Print Assumptions C83_bool_back.
Print Assumptions C83_bool_int_float.
Print Assumptions C83_constructor.
