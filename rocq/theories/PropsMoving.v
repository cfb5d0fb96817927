(** Property C82: the moving window statistics (la/deflarry.py). *)
From Verif Require Import MovingFacts.
From Verif Require Import PropsLarry PropsAlign PropsOps PropsNumeric PropsIndex PropsFarray PropsMove.

(** Sum and mean of the numbers in the window.  [moving_sum] and [moving_by]
    say NaN where an infinity lies before the window, which is not what the
    documentation says: see C82_infinity_refuted. *)
Theorem C82_sum_partial : forall y w a ax l,
  valid y -> numeric_larry y -> axis_is y a ax -> llabel y !! ax = Some l -> (1 <= w <= Z.of_nat (length l))%Z ->
  exists z, larry_move MSum y w (Some a) = Ok z /\ lanes_related (moving_sum (Z.to_nat w) 0 false) y (Some a) z.
Proof. exact move_sum_total. Qed.
Theorem C82_mean_partial : forall y w a ax l,
  valid y -> numeric_larry y -> axis_is y a ax -> llabel y !! ax = Some l -> (1 <= w <= Z.of_nat (length l))%Z ->
  exists z, larry_move MMean y w (Some a) = Ok z /\
    lanes_related (moving_by (reduced_or_nan RMean) (Z.to_nat w)) y (Some a) z.
Proof. exact move_mean_total. Qed.
(** The standard deviation, for every square root that keeps NaN. *)
Theorem C82_std_partial : forall root y w a ax l,
  root NaN = NaN ->
  valid y -> numeric_larry y -> axis_is y a ax -> llabel y !! ax = Some l -> (1 <= w <= Z.of_nat (length l))%Z ->
  exists z, larry_move (MStd root) y w (Some a) = Ok z /\
    lanes_related (moving_by (std_or_nan root) (Z.to_nat w)) y (Some a) z.
Proof. exact move_std_total. Qed.
Theorem C82_min : forall y w a ax l,
  valid y -> numeric_larry y -> axis_is y a ax -> llabel y !! ax = Some l -> (1 <= w <= Z.of_nat (length l))%Z ->
  exists z, larry_move MMin y w (Some a) = Ok z /\
    lanes_related (moved_by (reduced_or_nan RMin) (Z.to_nat w)) y (Some a) z.
Proof. exact move_min_total. Qed.
Theorem C82_max : forall y w a ax l,
  valid y -> numeric_larry y -> axis_is y a ax -> llabel y !! ax = Some l -> (1 <= w <= Z.of_nat (length l))%Z ->
  exists z, larry_move MMax y w (Some a) = Ok z /\
    lanes_related (moved_by (reduced_or_nan RMax) (Z.to_nat w)) y (Some a) z.
Proof. exact move_max_total. Qed.
Theorem C82_error : forall op y w,
  valid y -> numeric_larry y ->
  larry_move op y w None = Err ValueError /\
  (forall a, (forall ax, ~ axis_is y a ax) -> larry_move op y w (Some a) = Err ValueError) /\
  (forall a ax l, axis_is y a ax -> llabel y !! ax = Some l -> (w < 1 \/ Z.of_nat (length l) < w)%Z ->
     larry_move op y w (Some a) = Err ValueError).
Proof. exact move_error. Qed.
(** The library's own movingsum without skip and norm gives the same. *)
Theorem C82_movingsum : forall y w a ax,
  valid y -> numeric_larry y -> axis_is y a ax ->
  larry_move MSum y w (Some a) = (x ← np_movingsum (lx y) w 0 a false; Ok (Larry x (llabel y))).
Proof. exact move_sum_movingsum. Qed.
(** The full statement fails behind an infinity: the window [1] has sum 1,
    mean 1 and standard deviation 0, the methods give NaN. *)
Theorem C82_infinity_refuted :
  exists ns, let y := Larry (Nda DFloat (Arr [2] (VFloat <$> ns))) [[LInt 0; LInt 1]] in
    valid y /\ window_at 1 0 1 ns = [num_of_Z 1] /\
    let z := Larry (Nda DFloat (Arr [2] [VFloat PInf; VFloat NaN])) [[LInt 0; LInt 1]] in
    larry_move MSum y 1 (Some 0%Z) = Ok z /\ larry_move MMean y 1 (Some 0%Z) = Ok z /\
    larry_move (MStd (fun n => n)) y 1 (Some 0%Z) =
      Ok (Larry (Nda DFloat (Arr [2] [VFloat NaN; VFloat NaN])) [[LInt 0; LInt 1]]).
Proof. exists [PInf; num_of_Z 1]. cbv zeta. by_compute. Qed.
(** The examples of the docstrings; [MStd] without the root gives the variance. *)
Example C82_example :
  let y := Larry (Nda DFloat (Arr [4] [vf 1; vf 2; VFloat NaN; vf 4])) [[LInt 0; LInt 1; LInt 2; LInt 3]] in
  let r vs := Ok (Larry (Nda DFloat (Arr [4] vs)) (llabel y)) in
  valid y /\
  larry_move MSum y 2 (Some (-1)%Z) = r [VFloat NaN; vf 3; vf 2; vf 4] /\
  larry_move MMean y 2 (Some (-1)%Z) = r [VFloat NaN; vq 3 2; vf 2; vf 4] /\
  larry_move (MStd (fun n => n)) y 3 (Some 0%Z) = r [VFloat NaN; VFloat NaN; vq 1 4; vf 1] /\
  larry_move MMin y 2 (Some (-1)%Z) = r [VFloat NaN; vf 1; vf 2; vf 4] /\
  larry_move MMax y 2 (Some (-1)%Z) = r [VFloat NaN; vf 2; vf 2; vf 4] /\
  larry_move MMax y 5 (Some (-1)%Z) = Err ValueError /\
  larry_move MMean exm 2 (Some 0%Z) =
    Ok (Larry (Nda DFloat (Arr [2; 3] [VFloat NaN; VFloat NaN; VFloat NaN; vq 5 2; vf 5; vq (-3) 2])) (llabel exm)).
Proof. cbv zeta. by_compute. Qed.

Print Assumptions C82_sum_partial.
Print Assumptions C82_mean_partial.
Print Assumptions C82_std_partial.
Print Assumptions C82_min.
Print Assumptions C82_max.
Print Assumptions C82_error.
Print Assumptions C82_movingsum.
Print Assumptions C82_infinity_refuted.
