(** Specification of moving window functions. *)
From Verif Require Export SpecFarray.

(** The elements at positions [k+1-w-s .. k-s]. *)
Definition window_at {A} (w s k : nat) (l : list A) : list A := take w (drop (k + 1 - w - s) l).

(** The sum of the numbers in a window that are not NaN, scaled by their
    proportion if [norm]; NaN if there are none. *)
Definition window_sum (w : nat) (norm : bool) (p : list num) : num :=
  if decide (present p = []) then NaN
  else if norm then num_div (num_mul (num_of_nat w) (num_total (present p))) (num_of_nat (length (present p)))
  else num_total (present p).
(** [ms] is the moving sum of [ns] at the positions where no infinity
    precedes the window, and NaN behind an infinity. *)
Definition moving_sum (w s : nat) (norm : bool) (ns ms : list num) : Prop :=
  length ms = length ns /\
  forall k, k < length ns ->
    if decide (k + 1 < w + s) then ms !! k = Some NaN
    else (no_infinity (take (k + 1 - w - s) ns) -> ms !! k = Some (window_sum w norm (window_at w s k ns))) /\
         (~ no_infinity (take (k + 1 - w - s) ns) -> ms !! k = Some NaN).

(** [z] is the float larry obtained by replacing the values [vs] of each lane
    by numbers [ms] with [R vs ms]. *)
Definition lanes_to (R : list val -> list num -> Prop) (y : larry) (a : Z) (z : larry) : Prop :=
  valid z /\ ldtype z = DFloat /\ llabel z = llabel y /\
  exists ax, axis_is y a ax /\
    forall ls, in_grid (delete ax (llabel y)) ls -> exists vs ms,
      lane_of y ax ls vs /\ lane_of z ax ls (VFloat <$> ms) /\ R vs ms.
(** [ms] are the values of [f] on the trailing windows of [vs]. *)
Definition moved (f : list val -> num) (w : nat) (vs : list val) (ms : list num) : Prop :=
  length ms = length vs /\
  forall k, k < length vs -> ms !! k = Some (if decide (k + 1 < w) then NaN else f (window_at w 0 k vs)).
(** The same for a relation between windows and numbers. *)
Definition moved_by (P : list num -> num -> Prop) (w : nat) (ns ms : list num) : Prop :=
  length ms = length ns /\
  forall k, k < length ns -> exists m, ms !! k = Some m /\
    if decide (k + 1 < w) then m = NaN else P (window_at w 0 k ns) m.
(** The same, with NaN behind an infinity. *)
Definition moving_by (P : list num -> num -> Prop) (w : nat) (ns ms : list num) : Prop :=
  length ms = length ns /\
  forall k, k < length ns -> exists m, ms !! k = Some m /\
    if decide (k + 1 < w) then m = NaN
    else (no_infinity (take (k + 1 - w) ns) -> P (window_at w 0 k ns) m) /\
         (~ no_infinity (take (k + 1 - w) ns) -> m = NaN).
(** [m] is the reduction of the numbers that are not NaN, NaN if there are none. *)
Definition reduced_or_nan (op : red_op) (ns : list num) (m : num) : Prop :=
  if decide (present ns = []) then m = NaN else reduced op (present ns) m.
Definition std_or_nan (sqrt : num -> num) (ns : list num) (m : num) : Prop :=
  exists v, reduced_or_nan (RVar 0) ns v /\ m = sqrt v.
(** The median of the numbers that are not NaN. *)
Definition median_or_nan (ns : list num) (m : num) : Prop :=
  if decide (present ns = []) then m = NaN else median_of (present ns) m.
