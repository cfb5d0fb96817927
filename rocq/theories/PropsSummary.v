(** C93: summaries of summaries. *)
From Verif Require Import PropsLarry PropsOps PropsNumeric.
From Verif Require Import SummaryFacts.

(** The sum (maximum, ...) of the sums (maxima, ...) along an axis is that of
    the whole larry. *)
Theorem C93_summary : forall op y a z,
  valid y -> nonempty y -> op ∈ [RSum; RMax; RMin; RAny; RAll] -> (op = RSum -> no_clash y) ->
  larry_reduce op y (Some a) = Ok (OLar z) ->
  larry_reduce op z None = larry_reduce op y None.
Proof. exact summary_again. Qed.
Theorem C93_mean : forall y a z,
  valid y -> nonempty y -> finite_larry y ->
  larry_reduce RMean y (Some a) = Ok (OLar z) ->
  larry_reduce RMean z None = larry_reduce RMean y None.
Proof. exact mean_again. Qed.
(** Why the conditions: infinities of both signs in one row make its sum NaN,
    which the next sum leaves out; rows with fewer values weigh as much as
    others in a mean of means; and medians of medians are another thing. *)
Theorem C93_conditions : exists y y' y'' z z' z'',
  Forall (fun y => valid y /\ nonempty y) [y; y'; y''] /\ finite_larry y'' /\
  larry_reduce RSum y (Some 1%Z) = Ok (OLar z) /\ larry_reduce RSum z None <> larry_reduce RSum y None /\
  larry_reduce RMean y' (Some 1%Z) = Ok (OLar z') /\ larry_reduce RMean z' None <> larry_reduce RMean y' None /\
  larry_reduce RMedian y'' (Some 1%Z) = Ok (OLar z'') /\ larry_reduce RMedian z'' None <> larry_reduce RMedian y'' None.
Proof.
  set (rows := [LStr "x"; LStr "y"]). set (cols := [LInt 1; LInt 2]).
  set (y := Larry (Nda DFloat (Arr [2; 2] [VFloat PInf; VFloat NInf; vf 1; vf 2])) [rows; cols]).
  set (y' := Larry (Nda DFloat (Arr [2; 2] [VFloat NaN; vf 5; vf 1; vf 2])) [rows; cols]).
  set (y'' := Larry (Nda DInt (Arr [2; 3] (VInt <$> [0; 1; 9; 2; 3; 4]%Z))) [rows; [LInt 1; LInt 2; LInt 3]]).
  set (half := VFloat (Fin (Q2Qc (3 # 2)))).
  exists y, y', y'', (Larry (Nda DFloat (Arr [2] [VFloat NaN; vf 3])) [rows]), (Larry (Nda DFloat (Arr [2] [vf 5; half])) [rows]),
    (Larry (Nda DFloat (Arr [2] [vf 1; vf 3])) [rows]).
  split; [repeat constructor; try solve_valid; done|]. split.
  - intros ls v Hc. assert (Hv : valid y'') by solve_valid. apply (valid_cell_typed _ _ _ Hv) in Hc. destruct v as [|z| | | |]; try done. by eexists.
  - by_compute.
Qed.

Example C93_example :
  larry_reduce RSum ex2 (Some 0%Z) = Ok (OLar (Larry (Nda DInt (Arr [3] [VInt 5; VInt 7; VInt 9])) [[LInt 7; LInt 9; LInt 5]])) /\
  larry_reduce RSum (Larry (Nda DInt (Arr [3] [VInt 5; VInt 7; VInt 9])) [[LInt 7; LInt 9; LInt 5]]) None = Ok (OVal (VInt 21)) /\
  larry_reduce RSum ex2 None = Ok (OVal (VInt 21)) /\
  larry_reduce RMean ex2 (Some 1%Z) = Ok (OLar (Larry (Nda DFloat (Arr [2] [vf 2; vf 5])) [[LStr "x"; LStr "y"]])) /\
  larry_reduce RMean (Larry (Nda DFloat (Arr [2] [vf 2; vf 5])) [[LStr "x"; LStr "y"]]) None = larry_reduce RMean ex2 None.
Proof. by_compute. Qed.

Print Assumptions C93_summary.
Print Assumptions C93_mean.
Print Assumptions C93_conditions.
