(** C112: moving and running functions do not look ahead. *)
From Verif Require Import LawsFacts Numeric MoveFacts MovingFacts SpecFacts PropsLarry PropsOps PropsNumeric PropsFarray PropsMove PropsMoving.
From Verif Require Import AheadFacts.

Theorem C112_moving : forall op y y' w k a ax l,
  (forall root, op = MStd root -> root NaN = NaN) -> valid y -> numeric_larry y -> valid y' -> numeric_larry y' ->
  axis_is y a ax -> llabel y !! ax = Some l -> (1 <= w <= Z.of_nat (length l))%Z -> agree_before k ax y y' ->
  exists z z', larry_move op y w (Some a) = Ok z /\ larry_move op y' w (Some a) = Ok z' /\ agree_before k ax z z'.
Proof. exact ahead_move. Qed.
Theorem C112_movingsum : forall y y' w s norm k a ax l,
  valid y -> numeric_larry y -> valid y' -> numeric_larry y' ->
  axis_is y a ax -> llabel y !! ax = Some l -> (1 <= w <= Z.of_nat (length l))%Z -> s <= length l -> agree_before k ax y y' ->
  exists x x', np_movingsum (lx y) w s a norm = Ok x /\ np_movingsum (lx y') w s a norm = Ok x' /\
    agree_before k ax (Larry x (llabel y)) (Larry x' (llabel y')).
Proof. exact ahead_movingsum. Qed.
Theorem C112_median : forall layout method y y' w k a ax l,
  good_layout layout -> valid y -> numeric_larry y -> valid y' -> numeric_larry y' ->
  axis_is y a ax -> llabel y !! ax = Some l -> (1 <= w <= Z.of_nat (length l))%Z ->
  method = MLoop \/ method = MStrides /\ length (llabel y) <= 3 -> agree_before k ax y y' ->
  exists z z', larry_move_median layout y w (Some a) method = Ok z /\ larry_move_median layout y' w (Some a) method = Ok z' /\ agree_before k ax z z'.
Proof. exact ahead_median. Qed.
Theorem C112_ranking : forall layout method y y' w k a ax l,
  good_layout layout -> valid y -> numeric_larry y -> valid y' -> numeric_larry y' ->
  axis_is y a ax -> llabel y !! ax = Some l -> (1 <= w <= Z.of_nat (length l))%Z ->
  method = MLoop \/ method = MStrides /\ length (llabel y) <= 3 -> agree_before k ax y y' ->
  exists z z', larry_move_ranking layout y w (Some a) method = Ok z /\ larry_move_ranking layout y' w (Some a) method = Ok z' /\ agree_before k ax z z'.
Proof. exact ahead_ranking. Qed.
(** Any function of a window. *)
Theorem C112_func : forall layout func kw method y y' w k a ax l,
  good_layout layout -> valid y -> valid y' ->
  axis_is y a ax -> llabel y !! ax = Some l -> (1 <= w <= Z.of_nat (length l))%Z ->
  method = MLoop \/ method = MStrides /\ length (llabel y) <= 3 -> agree_before k ax y y' ->
  exists x x', np_move_func layout func (larr y) w (Some a) method kw = Ok x /\ np_move_func layout func (larr y') w (Some a) method kw = Ok x' /\
    agree_before k ax (Larry x (llabel y)) (Larry x' (llabel y')).
Proof. exact ahead_func. Qed.
Theorem C112_push : forall y y' n k a ax,
  valid y -> arithmetic (ldtype y) -> valid y' -> arithmetic (ldtype y') -> axis_is y a ax -> agree_before k ax y y' ->
  exists z z', larry_push y n a = Ok z /\ larry_push y' n a = Ok z' /\ agree_before k ax z z'.
Proof. exact ahead_push. Qed.
Theorem C112_cumulative : forall op y y' k a ax,
  valid y -> arithmetic (ldtype y) -> valid y' -> arithmetic (ldtype y') -> axis_is y a ax -> agree_before k ax y y' ->
  exists z z', larry_cum op y (Some a) = Ok z /\ larry_cum op y' (Some a) = Ok z' /\ agree_before_num k ax z z'.
Proof. exact ahead_cum. Qed.
(** Moving sums forward do not look back. *)
Theorem C112_forward : forall y y' w s norm k a ax l,
  valid y -> numeric_larry y -> valid y' -> numeric_larry y' ->
  axis_is y a ax -> llabel y !! ax = Some l -> (1 <= w <= Z.of_nat (length l))%Z -> s <= length l -> agree_from k ax y y' ->
  exists z z', larry_movingsum_forward y w s a norm = Ok z /\ larry_movingsum_forward y' w s a norm = Ok z' /\ agree_from k ax z z'.
Proof. exact ahead_forward. Qed.

Definition ex_late : larry :=
  Larry (Nda DFloat (Arr [2; 3] [vf 1; VFloat NaN; VFloat PInf; vf 4; vf 5; VFloat NaN])) [[LStr "a"; LStr "b"]; [LInt 1; LInt 2; LInt 3]].
Example C112_example :
  larry_move MSum exm 2 (Some 1%Z) = Ok (Larry (Nda DFloat (Arr [2; 3] [VFloat NaN; vf 1; vf 3; VFloat NaN; vf 9; vf (-1)])) (llabel exm)) /\
  larry_move MSum ex_late 2 (Some 1%Z) = Ok (Larry (Nda DFloat (Arr [2; 3] [VFloat NaN; vf 1; VFloat PInf; VFloat NaN; vf 9; vf 5])) (llabel exm)) /\
  larry_cum CSum exm (Some 1%Z) = Ok (Larry (Nda DFloat (Arr [2; 3] [vf 1; VFloat NaN; vf 4; vf 4; vf 9; vf 3])) (llabel exm)) /\
  larry_cum CSum ex_late (Some 1%Z) = Ok (Larry (Nda DFloat (Arr [2; 3] [vf 1; VFloat NaN; VFloat PInf; vf 4; vf 9; VFloat NaN])) (llabel exm)) /\
  larry_push exm 1 1 = Ok (Larry (Nda DFloat (Arr [2; 3] [vf 1; vf 1; vf 3; vf 4; vf 5; vf (-6)])) (llabel exm)) /\
  larry_push ex_late 1 1 = Ok (Larry (Nda DFloat (Arr [2; 3] [vf 1; vf 1; VFloat NaN; vf 4; vf 5; vf 5])) (llabel exm)).
Proof. by_compute. Qed.
Example C112_agree : agree_before 2 1 exm ex_late.
Proof.
  split; [done|]. intros l ls i x [= <-] Hx Hi Hg. inversion Hg as [|u ? us ? Hu Hus]; subst. inversion Hus; subst.
  destruct i as [|[|i]]; [..|lia]; simpl in Hx; simplify_eq; repeat (apply elem_of_cons in Hu as [->|Hu]); try (by apply elem_of_nil in Hu); reflexivity.
Qed.
Definition ex_early : larry :=
  Larry (Nda DFloat (Arr [2; 3] [vf 8; VFloat NaN; vf 3; VFloat NaN; vf 5; vf (-6)])) [[LStr "a"; LStr "b"]; [LInt 1; LInt 2; LInt 3]].
Example C112_forward_example :
  larry_movingsum_forward exm 2 0 1 false = Ok (Larry (Nda DFloat (Arr [2; 3] [vf 1; vf 3; VFloat NaN; vf 9; vf (-1); VFloat NaN])) (llabel exm)) /\
  larry_movingsum_forward ex_early 2 0 1 false = Ok (Larry (Nda DFloat (Arr [2; 3] [vf 8; vf 3; VFloat NaN; vf 5; vf (-1); VFloat NaN])) (llabel exm)).
Proof. by_compute. Qed.
Example C112_agree_from : agree_from 1 1 exm ex_early.
Proof.
  split; [done|]. intros l ls i x [= <-] Hx Hi Hg. inversion Hg as [|u ? us ? Hu Hus]; subst. inversion Hus; subst.
  destruct i as [|[|[|i]]]; [lia|..]; simpl in Hx; simplify_eq; repeat (apply elem_of_cons in Hu as [->|Hu]); try (by apply elem_of_nil in Hu); reflexivity.
Qed.

Print Assumptions C112_moving.
Print Assumptions C112_movingsum.
Print Assumptions C112_median.
Print Assumptions C112_ranking.
Print Assumptions C112_func.
Print Assumptions C112_push.
Print Assumptions C112_cumulative.
Print Assumptions C112_forward.
