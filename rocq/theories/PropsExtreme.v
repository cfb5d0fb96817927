(** C92: maxlabel and minlabel. *)
From Verif Require Import PropsLarry PropsOps.
From Verif Require Import ExtremeFacts.

Theorem C92_maxlabel : forall y axis m, maxlabel y axis = Ok m ->
  looked_at y axis m /\
  forall x, looked_at y axis x -> plain x -> plain m -> orderable x m -> x = m \/ before x m.
Proof. exact maxlabel_spec. Qed.
Theorem C92_minlabel : forall y axis m, minlabel y axis = Ok m ->
  looked_at y axis m /\
  forall x, looked_at y axis x -> plain x -> plain m -> orderable x m -> x = m \/ before m x.
Proof. exact minlabel_spec. Qed.
(** They succeed if there are labels and the labels can be ordered. *)
Theorem C92_succeeds : forall y axis, valid y ->
  (match axis with
   | None => Forall (fun l => l <> []) (llabel y)
   | Some a => exists ax l, axis_is y a ax /\ llabel y !! ax = Some l /\ l <> []
   end) ->
  (forall a b, looked_at y axis a -> looked_at y axis b -> a = b \/ orderable a b) ->
  (exists m, maxlabel y axis = Ok m) /\ (exists m, minlabel y axis = Ok m).
Proof. exact ext_succeeds. Qed.
Theorem C92_empty_axis : forall y a ax, axis_is y a ax -> llabel y !! ax = Some [] ->
  maxlabel y (Some a) = Err ValueError /\ minlabel y (Some a) = Err ValueError.
Proof. exact ext_empty. Qed.
Theorem C92_empty_larry : forall y, [] ∈ llabel y -> (forall l, l ∈ llabel y -> same_kind l) ->
  maxlabel y None = Err ValueError /\ minlabel y None = Err ValueError.
Proof. exact ext_empty_all. Qed.
Theorem C92_bad_axis : forall y a, (forall ax, ~ axis_is y a ax) ->
  maxlabel y (Some a) = Err IndexError /\ minlabel y (Some a) = Err IndexError.
Proof. exact ext_bad. Qed.

(** ex2 has strings along one axis and ints along the other, so that only the
    labels of one axis can be ordered. *)
Example C92_example :
  let y := Larry (Nda DInt (Arr [2; 3] (VInt <$> [1; 2; 3; 4; 5; 6]%Z))) [[LInt 8; LInt (-3)]; [LInt 7; LInt 9; LInt 5]] in
  maxlabel y None = Ok (LInt 9) /\ minlabel y None = Ok (LInt (-3)) /\
  maxlabel y (Some 0%Z) = Ok (LInt 8) /\ minlabel y (Some (-1)%Z) = Ok (LInt 5) /\ maxlabel y (Some 2%Z) = Err IndexError /\
  maxlabel ex2 (Some 0%Z) = Ok (LStr "y") /\ maxlabel ex2 None = Err TypeError /\
  looked_at ex2 (Some 1%Z) (LInt 9).
Proof.
  cbv zeta. repeat match goal with |- looked_at _ _ _ => idtac | |- _ /\ _ => split; [by vm_compute|] end.
  exists 1, [LInt 7; LInt 9; LInt 5]. split; [done|]. split; [apply elem_of_list_lookup; by exists 1|]. apply py_axis_is. by vm_compute.
Qed.

Print Assumptions C92_maxlabel.
Print Assumptions C92_minlabel.
Print Assumptions C92_succeeds.
Print Assumptions C92_empty_axis.
Print Assumptions C92_empty_larry.
Print Assumptions C92_bad_axis.
