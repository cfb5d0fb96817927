(** The moving window methods that call Bottleneck: la/deflarry.py:2705-2880
    (move_sum, move_mean, move_std, move_min, move_max). *)
From Verif Require Export SpecMove Move.

(** Bottleneck 0.7 goes through a lane once.  It adds the new element to the
    running sum and takes the element that leaves the window away from it;
    NaNs are left out.  The value after [i] elements, for the sum of [f]. *)
Fixpoint run_sum (f : num -> num) (w : nat) (ns : list num) (i : nat) : num :=
  match i with
  | 0 => num_of_Z 0
  | S i =>
      let s := run_sum f w ns i in
      let s := match ns !! i with Some n => if is_nan n then s else num_add s (f n) | None => s end in
      if decide (i < w) then s
      else match ns !! (i - w) with Some o => if is_nan o then s else num_sub s (f o) | None => s end
  end.
(** The number of elements in the sum. *)
Fixpoint run_count (w : nat) (ns : list num) (i : nat) : Z :=
  match i with
  | 0 => 0
  | S i =>
      let c := run_count w ns i in
      let c := match ns !! i with Some n => if is_nan n then c else (c + 1)%Z | None => c end in
      if decide (i < w) then c
      else match ns !! (i - w) with Some o => if is_nan o then c else (c - 1)%Z | None => c end
  end.
Inductive move_stat := MSum | MMean | MStd (root : num -> num) | MMin | MMax.
(** The output after [i] elements.  Simplifications: exact arithmetic; the
    minimum and maximum are taken of the window itself, Bottleneck's ring
    buffer of candidates is not modelled. *)
Definition stat_at (op : move_stat) (w : nat) (ns : list num) (i : nat) : num :=
  let c := run_count w ns i in
  let s := run_sum (fun n => n) w ns i in
  let s2 := run_sum (fun n => num_mul n n) w ns i in
  let win := filter (fun n => n <> NaN) (drop (i - w) (take i ns)) in
  match op with
  | MMin => fold1 num_min NaN win
  | MMax => fold1 num_max NaN win
  | _ =>
    if decide (0 < c)%Z then
      match op with
      | MMean => num_div s (num_of_Z c)
      | MStd root => root (num_div (num_sub s2 (num_div (num_mul s s) (num_of_Z c))) (num_of_Z c))
      | _ => s
      end
    else NaN
  end.
Definition move_lane (op : move_stat) (w : nat) (ns : list num) : list num :=
  (fun i => if decide (S i < w) then NaN else stat_at op w ns (S i)) <$> seq 0 (length ns).
(** [bn.move_nansum(x, window, axis)] and the others. *)
Definition bn_move (op : move_stat) (x : nda) (window : Z) (axis : option Z) : res nda :=
  match axis with
  | None => Err ValueError
  | Some axis =>
      ax ← of_opt ValueError (py_index (nd_ndim x) axis);
      n ← of_opt ValueError (axlen (nd_arr x) ax);
      _ ← check_numeric x;
      if decide (window < 1 \/ Z.of_nat n < window)%Z then Err ValueError
      else lanewise (move_lane op (Z.to_nat window)) x (Some ax)
  end.
(** [y.move_sum(window, axis)]: la/deflarry.py:2705-2738; move_mean: 2740-2773;
    move_std: 2775-2810; move_min: 2812-2845; move_max: 2847-2880. *)
Definition larry_move (op : move_stat) (y : larry) (window : Z) (axis : option Z) : res larry :=
  x ← bn_move op (lx y) window axis;
  Ok (Larry x (llabel y)).
