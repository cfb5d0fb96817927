(** la/farray/move.py and the larry methods that use it. *)
From Verif Require Export SpecMove Farray.

(** * movingsum *)

(** One lane of [movingsum(arr, window, skip, axis, norm)]:
    la/farray/move.py:294-330.  The slices of a lane of length n are
    [window-1:-skip or None] and [:-window-skip] of the cumulative sums, [1:]
    of the first of them and [skip+window-1:] of the result, which is filled
    with NaN first.  Simplifications: exact arithmetic, so that
    [csx[i+w] - csx[i]] has no rounding error. *)
Definition movingsum_lane (window skip : nat) (norm : bool) (ns : list num) : list num :=
  let n := length ns in
  let m := is_nan <$> ns in
  let arr := (fun v : num => if is_nan v then num_of_Z 0 else v) <$> ns in
  let csx := scan num_add arr in
  let msx := drop (window - 1) (take (n - skip) csx) in
  let msx := take 1 msx ++ zip_with num_sub (drop 1 msx) (take (n - window - skip) csx) in
  let csm := scan Z.add ((fun b : bool => if b then 0%Z else 1%Z) <$> m) in
  let msm := drop (window - 1) (take (n - skip) csm) in
  let msm := take 1 msm ++ zip_with Z.sub (drop 1 msm) (take (n - window - skip) csm) in
  let ms := zip_with (fun (x : num) (c : Z) =>
              if norm then num_div (num_mul (num_of_nat window) x) (num_of_Z c)
              else if decide (c = 0%Z) then NaN else x) msx msm in
  take (skip + window - 1) (replicate n NaN) ++ ms.
(** la/farray/move.py:286-292.  Simplification: [skip] is not negative, as the
    documentation demands. *)
Definition np_movingsum (x : nda) (window : Z) (skip : nat) (axis : Z) (norm : bool) : res nda :=
  if decide (window < 1)%Z then Err ValueError else
  ax ← of_opt IndexError (py_index (nd_ndim x) axis);
  n ← of_opt IndexError (axlen (nd_arr x) ax);
  if decide (Z.of_nat n < window)%Z then Err ValueError
  else if decide (n < skip) then Err IndexError
  else lanewise (movingsum_lane (Z.to_nat window) skip norm) x (Some ax).
(** [movingsum_forward]: la/farray/move.py:332-337. *)
Definition np_movingsum_forward (x : nda) (window : Z) (skip : nat) (axis : Z) (norm : bool) : res nda :=
  ax ← of_opt IndexError (py_index (nd_ndim x) axis);
  b ← slice_axis (nd_arr x) flip_slice ax;
  msf ← np_movingsum (Nda (nd_dtype x) b) window skip axis norm;
  c ← slice_axis (nd_arr msf) flip_slice ax;
  Ok (Nda (nd_dtype msf) c).
(** [y.movingsum_forward(window, skip, axis, norm)]: la/deflarry.py:3060-3064. *)
Definition larry_movingsum_forward (y : larry) (window : Z) (skip : nat) (axis : Z) (norm : bool) : res larry :=
  x ← np_movingsum_forward (lx y) window skip axis norm;
  Ok (Larry x (llabel y)).

(** * move_func *)

(** A reducing function with key word arguments is modelled by its value on a
    lane; numpy applies it to every lane and stores the results as floats. *)
Definition kwargs := pydict string val.
Definition lane_func := kwargs -> list val -> num.

(** [move_func_loop]: la/farray/move.py:185-192, after the checks. *)
Definition loop_step (f : list val -> num) (a : arr val) (window ax : nat) (y : arr num) (i : nat) : res (arr num) :=
  sub ← slice_axis a (Slice (Some (Z.of_nat (i + 1 - window))) (Some (Z.of_nat (i + 1))) None) ax;
  r ← of_opt ValueError (reduce f sub ax);
  of_opt ValueError
    (build (shape y) (fun idx => k ← idx !! ax; if decide (k = i) then aget r (remove_at ax idx) else aget y idx)).
Definition move_func_loop (f : list val -> num) (a : arr val) (window ax n : nat) : res (arr num) :=
  foldM (loop_step f a window ax) (full (shape a) NaN) (seq (window - 1) (n - (window - 1))).

(** A numpy array in memory: element [idx] is in the buffer at the offset plus
    the sum of index times stride.  Strides are counted in elements. *)
Record view (A : Type) := View { v_shape : list nat; v_strides : list Z; v_offset : Z; v_buf : list A }.
Global Arguments View {_} _ _ _ _.
Global Arguments v_shape {_} _.
Global Arguments v_strides {_} _.
Global Arguments v_offset {_} _.
Global Arguments v_buf {_} _.
Fixpoint dot (idx : list nat) (st : list Z) : Z :=
  match idx, st with
  | i :: idx', s :: st' => (Z.of_nat i * s + dot idx' st')%Z
  | _, _ => 0%Z
  end.
Definition view_get {A} (v : view A) (idx : list nat) : option A :=
  if decide (in_range (v_shape v) idx) then
    let p := (v_offset v + dot idx (v_strides v))%Z in
    if decide (0 <= p)%Z then v_buf v !! Z.to_nat p else None
  else None.
(** [v] is the array [a] in memory. *)
Definition holds {A} (v : view A) (a : arr A) : Prop :=
  v_shape v = shape a /\ length (v_strides v) = length (shape a) /\
  forall idx, in_range (shape a) idx -> view_get v idx = aget a idx.
Definition good_layout (layout : arr val -> view val) : Prop := forall a, holds (layout a) a.
(** The strides of a C contiguous array. *)
Fixpoint c_strides (sh : list nat) : list Z :=
  match sh with [] => [] | _ :: sh' => Z.of_nat (size_of sh') :: c_strides sh' end.
Definition view_of {A} (a : arr A) : view A := View (shape a) (c_strides (shape a)) 0 (data a).
(** [arr.T], [arr.swapaxes(i, j)] and [as_strided(arr, shape, strides)]. *)
Definition view_T {A} (v : view A) : view A := View (reverse (v_shape v)) (reverse (v_strides v)) (v_offset v) (v_buf v).
Definition view_swapaxes {A} (v : view A) (i j : nat) : option (view A) :=
  sh ← swap_at i j (v_shape v); st ← swap_at i j (v_strides v); Some (View sh st (v_offset v) (v_buf v)).
Definition as_strided {A} (v : view A) (sh : list nat) (st : list Z) : view A := View sh st (v_offset v) (v_buf v).
(** [func(z, axis=1)]. *)
Definition view_reduce {A B} (f : list A -> B) (v : view A) (ax : nat) : option (arr B) :=
  n ← v_shape v !! ax;
  build (remove_at ax (v_shape v)) (fun idx => f <$> mapM (fun k => view_get v (insert_at ax k idx)) (seq 0 n)).
(** [move_func_strides]: la/farray/move.py:202-241, after the checks. *)
Definition strides_windows (f : list val -> num) (v : view val) (window ax : nat) : res (arr num) :=
  match v_shape v with
  | [size] =>
      match v_strides v with
      | [s] => of_opt ValueError (view_reduce f (as_strided v [size - window + 1; window] [s; s]) 1)
      | _ => Err ValueError
      end
  | [_; _] =>
      let v := if decide (ax = 1) then view_T v else v in
      match v_shape v, v_strides v with
      | [n0; n1], [s0; s1] =>
          y ← of_opt ValueError (view_reduce f (as_strided v [n0 - window + 1; window; n1] [s0; s0; s1]) 1);
          if decide (ax = 1) then of_opt ValueError (transpose y) else Ok y
      | _, _ => Err ValueError
      end
  | [_; _; _] =>
      v ← (if decide (0 < ax) then of_opt ValueError (view_swapaxes v 0 ax) else Ok v);
      match v_shape v, v_strides v with
      | [n0; n1; n2], [s0; s1; s2] =>
          y ← of_opt ValueError (view_reduce f (as_strided v [n0 - window + 1; window; n1; n2] [s0; s0; s1; s2]) 1);
          if decide (0 < ax) then of_opt ValueError (np_swapaxes y 0 ax) else Ok y
      | _, _ => Err ValueError
      end
  | _ => Err ValueError
  end.
Definition move_func_strides (f : list val -> num) (v : view val) (window ax n : nat) : res (arr num) :=
  let arrshape0 := v_shape v in
  y ← strides_windows f v window ax;
  if decide (shape y = <[ax := n - (window - 1)]> arrshape0) then
    of_opt ValueError
      (build arrshape0 (fun idx => k ← idx !! ax;
         if decide (k < window - 1) then Some NaN else aget y (<[ax := k - (window - 1)]> idx)))
  else Err ValueError.

(** [move_func(func, arr, window, axis, method, **kwargs)]:
    la/farray/move.py:168-184 and 194-201.  [layout] is the position of the
    elements of the array in memory. *)
Inductive move_method := MLoop | MStrides | MBad.
Definition np_move_func (layout : arr val -> view val) (func : lane_func) (a : arr val) (window : Z) (axis : option Z)
    (method : move_method) (kw : kwargs) : res nda :=
  match method with
  | MBad => Err ValueError
  | _ =>
      match axis with
      | None => Err ValueError
      | Some axis =>
          if decide (window < 1)%Z then Err ValueError else
          ax ← of_opt IndexError (py_index (ndim a) axis);
          n ← of_opt IndexError (axlen a ax);
          if decide (Z.of_nat n < window)%Z then Err ValueError else
          y ← (match method with
               | MLoop => move_func_loop (func kw) a (Z.to_nat window) ax n
               | _ => move_func_strides (func kw) (layout a) (Z.to_nat window) ax n
               end);
          Ok (Nda DFloat (amap VFloat y))
      end
  end.
(** [y.move_func(func, window, axis, method, **kwargs)]:
    la/deflarry.py:3057-3058.  The key word arguments are not passed on. *)
Definition larry_move_func (layout : arr val -> view val) (func : lane_func) (y : larry) (window : Z) (axis : option Z)
    (method : move_method) (kw : kwargs) : res larry :=
  x ← np_move_func layout func (larr y) window axis method [];
  Ok (Larry x (llabel y)).

(** [y.move_median(window, axis, method)]: la/farray/move.py:49-56 and
    la/deflarry.py:3002-3003; [y.move_ranking(window, axis, method)]:
    la/farray/move.py:116-123 and la/deflarry.py:2882-2961.  The functions of a
    lane are [bn.nanmedian] and [lastrank]. *)
Definition nanmedian_lane : lane_func := fun _ vs => float_red RMedian (lane_nums vs).
Definition lastrank_func : lane_func := fun _ vs => lastrank_lane (omap to_num vs).
Definition larry_move_median (layout : arr val -> view val) (y : larry) (window : Z) (axis : option Z) (method : move_method) : res larry :=
  _ ← check_numeric (lx y);
  x ← np_move_func layout nanmedian_lane (larr y) window axis method [];
  Ok (Larry x (llabel y)).
Definition larry_move_ranking (layout : arr val -> view val) (y : larry) (window : Z) (axis : option Z) (method : move_method) : res larry :=
  _ ← check_numeric (lx y);
  x ← np_move_func layout lastrank_func (larr y) window axis method [];
  Ok (Larry x (llabel y)).
