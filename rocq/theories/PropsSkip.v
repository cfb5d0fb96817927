(** C110: skipped elements of moving sums, and the steps of running totals. *)
From Verif Require Import LawsFacts Numeric MoveFacts MovingFacts SpecFacts PropsLarry PropsOps PropsNumeric PropsFarray PropsMove PropsMoving.
From Verif Require Import SkipFacts.

Theorem C110_skip : forall y w s a norm ax l,
  valid y -> numeric_larry y -> axis_is y a ax -> llabel y !! ax = Some l -> (1 <= w <= Z.of_nat (length l))%Z -> s <= length l ->
  exists x xs, np_movingsum (lx y) w 0 a norm = Ok x /\ np_movingsum (lx y) w s a norm = Ok xs /\
    moved_down s ax (Larry x (llabel y)) (Larry xs (llabel y)).
Proof. exact movingsum_skip. Qed.
Theorem C110_lag : forall y w s a norm ax l x xs,
  valid y -> numeric_larry y -> axis_is y a ax -> llabel y !! ax = Some l -> (1 <= w <= Z.of_nat (length l))%Z -> 0 < s <= length l ->
  np_movingsum (lx y) w 0 a norm = Ok x -> np_movingsum (lx y) w s a norm = Ok xs ->
  exists z, lag (Larry x (llabel y)) (Z.of_nat s) (Some a) = Ok z /\ llabel z = <[ax := drop s l]> (llabel y) /\
    forall ls, in_grid (llabel z) ls -> cell z ls = cell (Larry xs (llabel y)) ls.
Proof. exact skip_is_lag. Qed.
Theorem C110_cumsum : forall y a ax,
  valid y -> arithmetic (ldtype y) -> axis_is y a ax -> exists z, larry_cum CSum y (Some a) = Ok z /\ grows_by num_add y ax z.
Proof. exact cumsum_grows. Qed.
Theorem C110_cumprod : forall y a ax,
  valid y -> arithmetic (ldtype y) -> axis_is y a ax -> exists z, larry_cum CProd y (Some a) = Ok z /\ grows_by num_mul y ax z.
Proof. exact cumprod_grows. Qed.

Example C110_example :
  np_movingsum (lx exm) 2 0 1 false = Ok (Nda DFloat (Arr [2; 3] [VFloat NaN; vf 1; vf 3; VFloat NaN; vf 9; vf (-1)])) /\
  np_movingsum (lx exm) 2 1 1 false = Ok (Nda DFloat (Arr [2; 3] [VFloat NaN; VFloat NaN; vf 1; VFloat NaN; VFloat NaN; vf 9])) /\
  lag (Larry (Nda DFloat (Arr [2; 3] [VFloat NaN; vf 1; vf 3; VFloat NaN; vf 9; vf (-1)])) (llabel exm)) 1 (Some 1%Z) =
    Ok (Larry (Nda DFloat (Arr [2; 2] [VFloat NaN; vf 1; VFloat NaN; vf 9])) (<[1 := [LInt 2; LInt 3]]> (llabel exm))) /\
  larry_cum CSum exm (Some 1%Z) = Ok (Larry (Nda DFloat (Arr [2; 3] [vf 1; VFloat NaN; vf 4; vf 4; vf 9; vf 3])) (llabel exm)).
Proof. by_compute. Qed.

Print Assumptions C110_skip.
Print Assumptions C110_lag.
Print Assumptions C110_cumsum.
Print Assumptions C110_cumprod.
