(** C94: other labels, other results only in their labels. *)
From Verif Require Import PropsLarry PropsOps PropsNumeric.
From Verif Require Import SpecRelabel RelabelInstances RelabelProgram RelabelLarry.

(** A program run on larrys with other labels - the labels among the arguments
    of its calls changed in the same way - gives the same data with the other
    labels, or the same exception. *)
Theorem C94_program : forall f g p env,
  relabelling f g -> Forall label_blind p ->
  run (relabelled f <$> env) (rename_call f g <$> p) = (fun e : list larry => relabelled f <$> e) <$> run env p.
Proof. exact (fun f g p env => rename_run f g p env). Qed.

(** The same for the methods that do not return a larry. *)
Theorem C94_lookup : forall f g y, relabelling f g ->
  (forall label, larry_get (relabelled f y) (f <$> label) = larry_get y label) /\
  (forall name axis exact, labelindex (relabelled f y) (f name) axis exact = labelindex y name axis exact) /\
  (forall axis, getlabel (relabelled f y) axis = (fun l : list lab => f <$> l) <$> getlabel y axis) /\
  (forall axis, maxlabel (relabelled f y) axis = f <$> maxlabel y axis) /\
  (forall axis, minlabel (relabelled f y) axis = f <$> minlabel y axis).
Proof. exact rename_lookup. Qed.

(** Any one-to-one change of the labels that are not tuples that keeps what can
    be ordered, and how, is such a change of labels: for instance a text before
    each string and a number added to each number, or numbers in place of days
    and days in place of numbers. *)
Theorem C94_tuplewise : forall h k,
  (forall x, ~ is_tuple x -> ~ is_tuple (h x)) -> (forall x, ~ is_tuple x -> k (h x) = x) ->
  (forall x y, ~ is_tuple x -> ~ is_tuple y -> (orderable (h x) (h y) <-> orderable x y)) ->
  (forall x y, ~ is_tuple x -> ~ is_tuple y -> orderable x y -> (lab_lt (h x) (h y) <-> lab_lt x y)) ->
  relabelling (tuplewise h) (tuplewise k).
Proof. exact tuplewise_relabelling. Qed.
Theorem C94_prefix : forall p k, relabelling (tuplewise (with_prefix p k)) (tuplewise (without_prefix p k)).
Proof. exact prefix_relabelling. Qed.
Theorem C94_days : relabelling (tuplewise numbers_for_days) (tuplewise numbers_for_days).
Proof. exact days_relabelling. Qed.

(** Why the conditions: a change of labels that turns their order around, and
    calls that look at what their labels are. *)
Definition negated (x : lab) : lab := match x with LInt z => LInt (- z) | _ => x end.
Theorem C94_conditions :
  (forall x, negated (negated x) = x) /\
  run (relabelled negated <$> [ex2]) (rename_call negated negated <$> [CSortaxis 0 None false]) <>
    (fun e : list larry => relabelled negated <$> e) <$> run [ex2] [CSortaxis 0 None false] /\
  let f := tuplewise numbers_for_days in
  run [] [rename_call f f (CMake (Nda DFloat (Arr [1] [vf 1])) None)] <>
    (fun e : list larry => relabelled f <$> e) <$> run [] [CMake (Nda DFloat (Arr [1] [vf 1])) None].
Proof. split; [intros []; try reflexivity; cbn; f_equal; apply Z.opp_involutive|]. cbv zeta. by_compute. Qed.

Example C94_example :
  let f := tuplewise numbers_for_days in
  let g := tuplewise (with_prefix "no. " 100) in
  let g' := tuplewise (without_prefix "no. " 100) in
  let p := [CSortaxis 0 None false; CFlatten 1 "C"; CPull 0 (LInt 9) (Some 1%Z);
            CLixGet 0 (LxTuple [LLabels [LStr "y"]; LSl (LSlice (Some (ELab [LInt 7])) None None)])] in
  relabelled f ex2 = Larry (lx ex2) [[LStr "x"; LStr "y"]; [LDate 7; LDate 9; LDate 5]] /\
  relabelled g ex2 = Larry (lx ex2) [[LStr "no. x"; LStr "no. y"]; [LInt 107; LInt 109; LInt 105]] /\
  run [relabelled g ex2] (rename_call g g' <$> p) =
    Ok [relabelled g ex2;
        Larry (Nda DInt (Arr [2; 3] (VInt <$> [3; 1; 2; 6; 4; 5]%Z))) [[LStr "no. x"; LStr "no. y"]; [LInt 105; LInt 107; LInt 109]];
        Larry (Nda DInt (Arr [6] (VInt <$> [3; 1; 2; 6; 4; 5]%Z)))
          [[LTup [LStr "no. x"; LInt 105]; LTup [LStr "no. x"; LInt 107]; LTup [LStr "no. x"; LInt 109];
            LTup [LStr "no. y"; LInt 105]; LTup [LStr "no. y"; LInt 107]; LTup [LStr "no. y"; LInt 109]]];
        Larry (Nda DInt (Arr [2] (VInt <$> [2; 5]%Z))) [[LStr "no. x"; LStr "no. y"]];
        Larry (Nda DInt (Arr [3] (VInt <$> [4; 5; 6]%Z))) [[LInt 107; LInt 109; LInt 105]]] /\
  run [relabelled f ex2] (rename_call f f <$> p) = (fun e : list larry => relabelled f <$> e) <$> run [ex2] p.
Proof. cbv zeta. by_compute. Qed.

Print Assumptions C94_program.
Print Assumptions C94_lookup.
Print Assumptions C94_tuplewise.
Print Assumptions C94_prefix.
Print Assumptions C94_days.
Print Assumptions C94_conditions.
