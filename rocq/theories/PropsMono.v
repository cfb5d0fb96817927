(** C106: larger data have larger statistics. *)
From Verif Require Import LawsFacts Numeric MoveFacts MovingFacts SpecFacts PropsOps PropsNumeric PropsMove PropsMoving.
From Verif Require Import Mono2Facts.
From Verif Require Export SpecMono.

Theorem C106_extremes : forall op y z axis, op = RMin \/ op = RMax ->
  valid y -> valid z -> nonempty y -> arithmetic (ldtype y) -> arithmetic (ldtype z) -> axis_ok y axis -> larry_at_most y z ->
  exists a b, larry_reduce op y axis = Ok a /\ larry_reduce op z axis = Ok b /\ out_at_most a b.
Proof. exact extremes_at_most. Qed.
Theorem C106_reduce : forall op y z axis, op = RSum \/ op = RMean \/ op = RMedian ->
  valid y -> valid z -> nonempty y -> arithmetic (ldtype y) -> arithmetic (ldtype z) -> axis_ok y axis -> larry_at_most y z -> no_inf y -> no_inf z ->
  exists a b, larry_reduce op y axis = Ok a /\ larry_reduce op z axis = Ok b /\ out_at_most a b.
Proof. exact averages_at_most. Qed.
Theorem C106_cumsum : forall y z a ax, valid y -> valid z -> arithmetic (ldtype y) -> arithmetic (ldtype z) -> axis_is y a ax -> larry_at_most y z -> no_inf y -> no_inf z ->
  exists b c, larry_cum CSum y (Some a) = Ok b /\ larry_cum CSum z (Some a) = Ok c /\ larry_at_most b c.
Proof. exact cumsum_at_most. Qed.
Theorem C106_moving : forall op y z w a ax l,
  valid y -> valid z -> numeric_larry y -> numeric_larry z -> axis_is y a ax -> llabel y !! ax = Some l -> (1 <= w <= Z.of_nat (length l))%Z ->
  larry_at_most y z -> op = MMin \/ op = MMax \/ op = MMean /\ no_inf y /\ no_inf z ->
  exists b c, larry_move op y w (Some a) = Ok b /\ larry_move op z w (Some a) = Ok c /\ larry_at_most b c.
Proof. exact moving_at_most. Qed.
Theorem C106_moving_median : forall layout method y z w a ax l, good_layout layout ->
  valid y -> valid z -> numeric_larry y -> numeric_larry z -> axis_is y a ax -> llabel y !! ax = Some l -> (1 <= w <= Z.of_nat (length l))%Z ->
  method = MLoop \/ method = MStrides /\ length (llabel y) <= 3 -> larry_at_most y z -> no_inf y -> no_inf z ->
  exists b c, larry_move_median layout y w (Some a) method = Ok b /\ larry_move_median layout z w (Some a) method = Ok c /\ larry_at_most b c.
Proof. exact moving_median_at_most. Qed.
(** Infinities have to be left out: sum, mean and median of both infinities are
    missing, those of larger numbers are not. *)
Theorem C106_infinity :
  exists y z, valid y /\ valid z /\ nonempty y /\ ldtype y = DFloat /\ ldtype z = DFloat /\ larry_at_most y z /\
    forall op, op = RSum \/ op = RMean \/ op = RMedian ->
    larry_reduce op y None = Ok (OVal (VFloat NaN)) /\ larry_reduce op z None = Ok (OVal (VFloat PInf)).
Proof. exact infinity_needed. Qed.

Definition ex_two (l : list num) : larry := Larry (Nda DFloat (Arr [3] (VFloat <$> l))) [[LStr "a"; LStr "b"; LStr "c"]].
Example C106_example :
  let y := ex_two [num_of_Z 1; NaN; num_of_Z 4] in let z := ex_two [num_of_Z 3; NaN; num_of_Z 4] in
  valid y /\ valid z /\ larry_at_most y z /\ ~ larry_at_most z y /\
  larry_reduce RMean y (Some 0%Z) = Ok (OVal (VFloat (Fin (Q2Qc (5 # 2))))) /\ larry_reduce RMean z (Some 0%Z) = Ok (OVal (VFloat (Fin (Q2Qc (7 # 2))))) /\
  larry_cum CSum y (Some 0%Z) = Ok (ex_two [num_of_Z 1; NaN; num_of_Z 5]) /\ larry_cum CSum z (Some 0%Z) = Ok (ex_two [num_of_Z 3; NaN; num_of_Z 7]).
Proof.
  cbv zeta. split; [solve_valid|]. split; [solve_valid|]. split; [|split].
  - split; [done|]. intros ls Hg. apply Forall2_cons_inv_r in Hg as (x & ls' & Hx & H0 & ->). apply Forall2_nil_inv_r in H0 as ->.
    unfold at_most. repeat (apply elem_of_cons in Hx as [->|Hx]); [..|by apply elem_of_nil in Hx]; eexists _, _, _, _; (split; [by vm_compute|]); (split; [by vm_compute|]); (split; [done|]); (split; [done|]).
    + right. by left.
    + by left.
    + right. by right.
  - intros [_ H]. destruct (H [LStr "a"]) as (u & v & m & n & Hu & Hv & Em & En & Hmn).
    { repeat constructor. }
    vm_compute in Hu, Hv. injection Hu as <-. injection Hv as <-. cbn [to_num] in Em, En. injection Em as <-. injection En as <-.
    destruct Hmn as [[? _]|[Hmn|[Hmn _]]]; done.
  - split_and!; refine (bool_decide_unpack _ _); vm_compute; exact I.
Qed.

Print Assumptions C106_extremes.
Print Assumptions C106_reduce.
Print Assumptions C106_cumsum.
Print Assumptions C106_moving.
Print Assumptions C106_moving_median.
Print Assumptions C106_infinity.
