(** C105: statistics lie within the data. *)
From Verif Require Import LawsFacts Numeric MoveFacts MovingFacts SpecFacts PropsOps PropsNumeric PropsMove PropsMoving.
From Verif Require Import Bounds2Facts.

Theorem C105_mean : forall op y axis, op = RMean \/ op = RMedian -> valid y -> nonempty y -> arithmetic (ldtype y) -> axis_ok y axis ->
  exists a b c, larry_reduce RMin y axis = Ok a /\ larry_reduce op y axis = Ok b /\ larry_reduce RMax y axis = Ok c /\ three_related bounded a b c.
Proof. exact reduce_bounded. Qed.
Theorem C105_variance : forall y axis ddof, (ddof <= 0)%Z -> valid y -> nonempty y -> arithmetic (ldtype y) -> axis_ok y axis ->
  exists a b c, larry_reduce RMin y axis = Ok a /\ larry_reduce (RVar ddof) y axis = Ok b /\ larry_reduce RMax y axis = Ok c /\ three_related variance_bounded a b c.
Proof. exact variance_out. Qed.
Theorem C105_moving : forall y w a ax l, valid y -> numeric_larry y -> no_inf y -> axis_is y a ax -> llabel y !! ax = Some l -> (1 <= w <= Z.of_nat (length l))%Z ->
  exists zl zm zh, larry_move MMin y w (Some a) = Ok zl /\ larry_move MMean y w (Some a) = Ok zm /\ larry_move MMax y w (Some a) = Ok zh /\
    three_related bounded (OLar zl) (OLar zm) (OLar zh).
Proof. exact moving_bounded. Qed.
Theorem C105_moving_median : forall layout y w a ax l method, good_layout layout -> valid y -> numeric_larry y -> axis_is y a ax -> llabel y !! ax = Some l ->
  (1 <= w <= Z.of_nat (length l))%Z -> method = MLoop \/ method = MStrides /\ length (llabel y) <= 3 ->
  exists zl zm zh, larry_move MMin y w (Some a) = Ok zl /\ larry_move_median layout y w (Some a) method = Ok zm /\ larry_move MMax y w (Some a) = Ok zh /\
    three_related bounded (OLar zl) (OLar zm) (OLar zh).
Proof. exact moving_median_bounded. Qed.

Definition ex_extremes : larry := Larry (Nda DFloat (Arr [3; 3] (VFloat <$> [NInf; num_of_Z 4; NaN; num_of_Z 2; num_of_Z 4; NaN; PInf; num_of_Z 4; NaN])))
  [[LStr "a"; LStr "b"; LStr "c"]; [LInt 0; LInt 1; LInt 2]].
Definition ex_columns (l : list num) : out := OLar (Larry (Nda DFloat (Arr [3] (VFloat <$> l))) [[LInt 0; LInt 1; LInt 2]]).
Example C105_example :
  valid ex_extremes /\ nonempty ex_extremes /\
  larry_reduce RMin ex_extremes (Some 0%Z) = Ok (ex_columns [NInf; num_of_Z 4; NaN]) /\
  larry_reduce RMean ex_extremes (Some 0%Z) = Ok (ex_columns [NaN; num_of_Z 4; NaN]) /\
  larry_reduce RMedian ex_extremes (Some 0%Z) = Ok (ex_columns [num_of_Z 2; num_of_Z 4; NaN]) /\
  larry_reduce (RVar 0) ex_extremes (Some 0%Z) = Ok (ex_columns [NaN; num_of_Z 0; NaN]) /\
  larry_reduce RMax ex_extremes (Some 0%Z) = Ok (ex_columns [PInf; num_of_Z 4; NaN]) /\
  ~ bounded (num_of_Z 1) (num_of_Z 3) (num_of_Z 2) /\ ~ bounded (num_of_Z 1) NaN (num_of_Z 2) /\ ~ variance_bounded (num_of_Z 1) (num_of_Z 0) (num_of_Z 2).
Proof.
  split; [solve_valid|]. split; [by repeat constructor|]. do 5 (split; [refine (bool_decide_unpack _ _); vm_compute; exact I|]). split_and!.
  - intros [(? & _)|[[_ H]|(? & _)]]; try done. destruct H as [H|[H _]]; done.
  - intros [(? & _)|[[H _]|(? & _)]]; try done. destruct H as [H|[H _]]; done.
  - intros (_ & _ & [H _]). destruct (H eq_refl) as (q & E & E'). rewrite <-E' in E. done.
Qed.
Definition ex_row (l : list num) : larry := Larry (Nda DFloat (Arr [4] (VFloat <$> l))) [[LStr "a"; LStr "b"; LStr "c"; LStr "d"]].
Definition ex_moved : larry := ex_row [num_of_Z 1; num_of_Z 5; num_of_Z 3; NaN].
Example C105_moving_example :
  valid ex_moved /\ no_inf ex_moved /\ axis_is ex_moved (-1) 0 /\
  larry_move MMin ex_moved 2 (Some (-1)%Z) = Ok (ex_row [NaN; num_of_Z 1; num_of_Z 3; num_of_Z 3]) /\
  larry_move MMean ex_moved 2 (Some (-1)%Z) = Ok (ex_row [NaN; num_of_Z 3; num_of_Z 4; num_of_Z 3]) /\
  larry_move MMax ex_moved 2 (Some (-1)%Z) = Ok (ex_row [NaN; num_of_Z 5; num_of_Z 5; num_of_Z 3]).
Proof.
  assert (Hv : valid ex_moved) by solve_valid. split; [done|]. split.
  { intros ls n H. assert (Hi : no_infinite ex_moved) by (apply no_infinite_data; [done|]; by repeat constructor). destruct (Hi _ _ H). by destruct n. }
  split; [unfold axis_is; simpl; lia|]. do 2 (split; [refine (bool_decide_unpack _ _); vm_compute; exact I|]). refine (bool_decide_unpack _ _); vm_compute; exact I.
Qed.

Print Assumptions C105_mean.
Print Assumptions C105_variance.
Print Assumptions C105_moving.
Print Assumptions C105_moving_median.
