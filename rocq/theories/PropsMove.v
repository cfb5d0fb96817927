(** Properties C39, C40 and C65: moving window functions (la/farray/move.py). *)
From Verif Require Import StridesFacts.
From Verif Require Import PropsLarry PropsAlign PropsOps PropsNumeric PropsIndex PropsFarray.

Definition exw : larry :=
  Larry (Nda DFloat (Arr [5] [vf 1; vf 2; VFloat NaN; vf 4; vf 5])) [[LInt 0; LInt 1; LInt 2; LInt 3; LInt 4]].

(** C39: movingsum.  [moving_sum] is NaN at the positions before whose window
    there is an infinity, which is not what is documented; the array is seen as
    the data of a larry. *)
Theorem C39_movingsum_partial : forall y w s a norm ax l,
  valid y -> numeric_larry y -> axis_is y a ax -> llabel y !! ax = Some l ->
  (1 <= w <= Z.of_nat (length l))%Z -> s <= length l ->
  exists x, np_movingsum (lx y) w s a norm = Ok x /\
    lanes_related (moving_sum (Z.to_nat w) s norm) y (Some a) (Larry x (llabel y)).
Proof. intros y w s a norm ax l. exact (movingsum_total (lx y) y w s a norm ax l eq_refl). Qed.
Theorem C39_movingsum_error : forall y w s a norm,
  valid y ->
  ((w < 1)%Z -> np_movingsum (lx y) w s a norm = Err ValueError) /\
  (forall ax l, axis_is y a ax -> llabel y !! ax = Some l ->
    ((Z.of_nat (length l) < w)%Z -> np_movingsum (lx y) w s a norm = Err ValueError) /\
    ((1 <= w <= Z.of_nat (length l))%Z -> length l < s -> np_movingsum (lx y) w s a norm = Err IndexError)) /\
  ((1 <= w)%Z -> (forall ax, ~ axis_is y a ax) -> np_movingsum (lx y) w s a norm = Err IndexError).
Proof. intros y w s a norm. exact (movingsum_error (lx y) y w s a norm eq_refl). Qed.
Theorem C39_forward_partial : forall y w s a norm ax l,
  valid y -> numeric_larry y -> axis_is y a ax -> llabel y !! ax = Some l ->
  (1 <= w <= Z.of_nat (length l))%Z -> s <= length l ->
  exists z, larry_movingsum_forward y w s a norm = Ok z /\
    lanes_related (fun ns ms => moving_sum (Z.to_nat w) s norm (reverse ns) (reverse ms)) y (Some a) z.
Proof. exact movingsum_forward_total. Qed.
Theorem C39_forward_error : forall y w s a norm,
  valid y ->
  (forall ax l, axis_is y a ax -> llabel y !! ax = Some l ->
    ((w < 1 \/ Z.of_nat (length l) < w)%Z -> larry_movingsum_forward y w s a norm = Err ValueError) /\
    ((1 <= w <= Z.of_nat (length l))%Z -> length l < s -> larry_movingsum_forward y w s a norm = Err IndexError)) /\
  ((forall ax, ~ axis_is y a ax) -> larry_movingsum_forward y w s a norm = Err IndexError).
Proof. exact movingsum_forward_error. Qed.
(** The full statement fails behind an infinity: the window [1] sums to 1, the
    difference of the cumulative sums is NaN. *)
Theorem C39_infinity_refuted :
  exists ns, valid (Larry (Nda DFloat (Arr [2] (VFloat <$> ns))) [[LInt 0; LInt 1]]) /\
    window_sum 1 false (window_at 1 0 1 ns) = num_of_Z 1 /\
    np_movingsum (Nda DFloat (Arr [2] (VFloat <$> ns))) 1 0 0 false = Ok (Nda DFloat (Arr [2] [VFloat PInf; VFloat NaN])).
Proof. exists [PInf; num_of_Z 1]. by_compute. Qed.
Example C39_example :
  valid exw /\
  np_movingsum (lx exw) 2 0 (-1) false = Ok (Nda DFloat (Arr [5] [VFloat NaN; vf 3; vf 2; vf 4; vf 9])) /\
  np_movingsum (lx exw) 2 0 0 true = Ok (Nda DFloat (Arr [5] [VFloat NaN; vf 3; vf 4; vf 8; vf 9])) /\
  np_movingsum (lx exw) 2 1 0 false = Ok (Nda DFloat (Arr [5] [VFloat NaN; VFloat NaN; vf 3; vf 2; vf 4])) /\
  np_movingsum (lx exw) 1 0 0 false = Ok (lx exw) /\
  np_movingsum (lx exw) 6 0 0 false = Err ValueError /\
  np_movingsum (lx exm) 2 0 0 false = Ok (Nda DFloat (Arr [2; 3] [VFloat NaN; VFloat NaN; VFloat NaN; vf 5; vf 5; vf (-3)])) /\
  larry_movingsum_forward exw 2 1 0 false =
    Ok (Larry (Nda DFloat (Arr [5] [vf 2; vf 4; vf 9; VFloat NaN; VFloat NaN])) (llabel exw)).
Proof. by_compute. Qed.

(** C40: move_func, for every function of the window.  [layout] says where
    the array is in memory: C or Fortran order, a view of another array, ... *)
Theorem C40_windows : forall layout func kw y w a ax l method,
  good_layout layout -> valid y -> axis_is y a ax -> llabel y !! ax = Some l -> (1 <= w <= Z.of_nat (length l))%Z ->
  method = MLoop \/ method = MStrides /\ length (llabel y) <= 3 ->
  exists x, np_move_func layout func (larr y) w (Some a) method kw = Ok x /\
    lanes_to (moved (func kw) (Z.to_nat w)) y a (Larry x (llabel y)).
Proof. exact np_move_func_spec. Qed.
Theorem C40_agree : forall layout func kw y w axis,
  good_layout layout -> valid y -> length (llabel y) <= 3 ->
  np_move_func layout func (larr y) w axis MStrides kw = np_move_func layout func (larr y) w axis MLoop kw /\
  larry_move_func layout func y w axis MStrides kw = larry_move_func layout func y w axis MLoop kw.
Proof.
  intros layout func kw y w axis H1 H2 H3.
  exact (conj (np_move_func_agree layout func kw y w axis H1 H2 H3) (move_func_agree layout func kw y w axis H1 H2 H3)).
Qed.
Theorem C40_error : forall layout func kw y w method,
  good_layout layout -> valid y ->
  larry_move_func layout func y w None method kw = Err ValueError /\
  (forall axis, larry_move_func layout func y w axis MBad kw = Err ValueError) /\
  (forall axis, (w < 1)%Z -> larry_move_func layout func y w axis method kw = Err ValueError) /\
  (forall a ax l, axis_is y a ax -> llabel y !! ax = Some l -> (Z.of_nat (length l) < w)%Z ->
     larry_move_func layout func y w (Some a) method kw = Err ValueError) /\
  (forall a ax l, axis_is y a ax -> llabel y !! ax = Some l -> 3 < length (llabel y) ->
     larry_move_func layout func y w (Some a) MStrides kw = Err ValueError) /\
  (forall a, (forall ax, ~ axis_is y a ax) -> (1 <= w)%Z -> method <> MBad ->
     larry_move_func layout func y w (Some a) method kw = Err IndexError).
Proof. exact move_func_error. Qed.
(** The methods built on it. *)
Theorem C40_median : forall layout y w a ax l method,
  good_layout layout -> valid y -> numeric_larry y -> axis_is y a ax -> llabel y !! ax = Some l -> (1 <= w <= Z.of_nat (length l))%Z ->
  method = MLoop \/ method = MStrides /\ length (llabel y) <= 3 ->
  exists z, larry_move_median layout y w (Some a) method = Ok z /\
    lanes_related (moved_by median_or_nan (Z.to_nat w)) y (Some a) z.
Proof. exact move_median_total. Qed.
Theorem C40_ranking : forall layout y w a ax l method,
  good_layout layout -> valid y -> numeric_larry y -> axis_is y a ax -> llabel y !! ax = Some l -> (1 <= w <= Z.of_nat (length l))%Z ->
  method = MLoop \/ method = MStrides /\ length (llabel y) <= 3 ->
  exists z, larry_move_ranking layout y w (Some a) method = Ok z /\
    lanes_related (moved_by last_ranked (Z.to_nat w)) y (Some a) z.
Proof. exact move_ranking_total. Qed.
(** There are layouts: the C contiguous one and its transpose. *)
Theorem C40_layouts : good_layout view_of.
Proof. exact (fun a => view_of_holds a). Qed.
Definition sum_func : lane_func := fun _ vs => num_total (omap to_num vs).
Definition view_F (a : arr val) : view val :=
  match transpose a with Some t => view_T (view_of t) | None => view_of a end.
Example C40_example :
  larry_move_func view_of sum_func exw 2 (Some (-1)%Z) MStrides [] =
    Ok (Larry (Nda DFloat (Arr [5] [VFloat NaN; vf 3; VFloat NaN; VFloat NaN; vf 9])) (llabel exw)) /\
  larry_move_func view_of sum_func exm 2 (Some 1%Z) MStrides [] =
    Ok (Larry (Nda DFloat (Arr [2; 3] [VFloat NaN; VFloat NaN; VFloat NaN; VFloat NaN; vf 9; vf (-1)])) (llabel exm)) /\
  larry_move_func view_F sum_func exm 2 (Some 1%Z) MStrides [] = larry_move_func view_of sum_func exm 2 (Some 1%Z) MLoop [] /\
  v_strides (view_F (larr exm)) = [1; 2]%Z /\ v_strides (view_of (larr exm)) = [3; 1]%Z /\
  larry_move_median view_of exm 2 (Some 1%Z) MLoop =
    Ok (Larry (Nda DFloat (Arr [2; 3] [VFloat NaN; vf 1; vf 3; VFloat NaN; vq 9 2; vq (-1) 2])) (llabel exm)) /\
  larry_move_ranking view_of exm 3 (Some (-1)%Z) MStrides =
    Ok (Larry (Nda DFloat (Arr [2; 3] [VFloat NaN; VFloat NaN; vf 1; VFloat NaN; VFloat NaN; vf (-1)])) (llabel exm)).
Proof. by_compute. Qed.

(** C65: the key word arguments.  Without them the method is the function. *)
Theorem C65_no_kwargs_partial : forall layout func y w a ax l method,
  good_layout layout -> valid y -> axis_is y a ax -> llabel y !! ax = Some l -> (1 <= w <= Z.of_nat (length l))%Z ->
  method = MLoop \/ method = MStrides /\ length (llabel y) <= 3 ->
  exists z, larry_move_func layout func y w (Some a) method [] = Ok z /\ lanes_to (moved (func []) (Z.to_nat w)) y a z.
Proof. intros layout func. exact (move_func_total layout func []). Qed.
(** With them it still calls [func] without: they are lost. *)
Theorem C65_kwargs_refuted :
  exists layout func kw y w a method x,
    good_layout layout /\ valid y /\
    np_move_func layout func (larr y) w (Some a) method kw = Ok x /\
    larry_move_func layout func y w (Some a) method kw <> Ok (Larry x (llabel y)).
Proof.
  exists view_of, (fun kw _ => num_of_nat (length kw)), [("ddof"%string, VInt 1)], exw, 2%Z, 0%Z, MLoop,
    (Nda DFloat (Arr [5] [VFloat NaN; vf 1; vf 1; vf 1; vf 1])).
  split; [exact C40_layouts|]. by_compute.
Qed.

Print Assumptions C39_movingsum_partial.
Print Assumptions C39_movingsum_error.
Print Assumptions C39_forward_partial.
Print Assumptions C39_forward_error.
Print Assumptions C39_infinity_refuted.
Print Assumptions C40_windows.
Print Assumptions C40_agree.
Print Assumptions C40_error.
Print Assumptions C40_median.
Print Assumptions C40_ranking.
Print Assumptions C40_layouts.
Print Assumptions C65_no_kwargs_partial.
Print Assumptions C65_kwargs_refuted.
