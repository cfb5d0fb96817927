(** la/farray/misc.py, keep_x, lastrank with decay and the elementwise
    functions log, exp, sqrt and power. *)
From Verif Require Export SpecMisc Farray.

(** * keep_x *)

(** [y.x[~idx] = np.nan] for a bool array [idx] of the shape of [y.x]. *)
Definition blank (x idx : nda) : res nda :=
  putmask_scalar x (amap (fun v => negb (val_truth v)) (nd_arr idx)) (VFloat NaN).
(** [y.keep_x(op, value, vacuum)]: la/deflarry.py:2484-2534; [op] is None for
    an unknown operation.  Simplification: strings, objects and values that
    cannot be compared elementwise are not modelled. *)
Definition keep_x (y : larry) (op : option cmp_op) (value : val) (vac : bool) : res larry :=
  if vac && negb (bool_decide (lndim y = 2)) then Err ValueError else
  op ← of_opt ValueError op;
  a ← scalar_nda value;
  r ← np_compare op (lx y) a;
  match ldtype y, r with
  | (DFloat | DInt | DBool), inl idx =>
      x ← blank (lx y) idx;
      let z := Larry x (llabel y) in
      if vac then vacuum z AxNone else Ok z
  | _, _ => Err NotImplementedError
  end.

(** * lastrank with decay *)

(** The weights: la/farray/normalize.py:97-100. *)
Definition decay_weights (exp : num -> num) (decay : num) (nt : nat) : list num :=
  let w := (fun k => num_sub (num_of_nat nt) (num_of_nat (S k))) <$> seq 0 nt in
  let w := (fun a => exp (num_mul (num_neg decay) a)) <$> w in
  let s := fold_left num_add w (num_of_Z 0) in
  (fun a => num_div (num_mul (num_of_nat nt) a) s) <$> w.
(** [(b * w).sum(axis)] for a bool array [b]. *)
Definition weigh (p : num -> bool) (ns ws : list num) : num :=
  fold_left num_add (zip_with (fun n w => num_mul (num_of_Z (if p n then 1 else 0)) w) ns ws) (num_of_Z 0).
(** One lane: la/farray/normalize.py:91-124. *)
Definition lastrank_decay_lane (exp : num -> num) (decay : num) (ns : list num) : num :=
  let ws := decay_weights exp decay (length ns) in
  match last ns, last ws with
  | Some n, Some wl =>
      let g := weigh (fun m => num_ltb m n) ns ws in
      let e := weigh (fun m => num_eqb n m) ns ws in
      let c := weigh is_finite ns ws in
      let r := num_div (num_sub (num_add (num_add g g) e) wl) (num_of_Z 2) in
      let r := num_div r (num_sub c wl) in
      let r := num_mul (num_of_Z 2) (num_sub r (num_div (num_of_Z 1) (num_of_Z 2))) in
      if is_finite n then r else NaN
  | _, _ => NaN
  end.
(** Reduction of a numeric larry lane by lane to floats, as [__reduce]:
    la/deflarry.py:1461-1492; [f] acts on the numbers of a lane, [e] is the
    exception for a wrong axis. *)
Definition reduce_nums (f : list num -> num) (e : exn) (y : larry) (axis : option Z) : res out :=
  if decide (lsize y = 0) then
    match axis with
    | None => Ok (OVal (VFloat NaN))
    | Some a =>
        ax ← of_opt IndexError (py_index (lndim y) a);
        match remove_at ax (lshape y) with
        | [] => Ok (OVal (VFloat NaN))
        | sh => v ← store (ldtype y) (VFloat NaN);
                Ok (OLar (Larry (Nda (ldtype y) (full sh v)) (remove_at ax (llabel y))))
        end
    end
  else
    _ ← check_numeric (lx y);
    match axis with
    | None => Ok (OVal (VFloat (f (omap to_num (data (larr y))))))
    | Some a =>
        ax ← of_opt e (py_index (lndim y) a);
        b ← of_opt ValueError (reduce (fun l => VFloat (f (omap to_num l))) (larr y) ax);
        as_out (Nda DFloat b) (remove_at ax (llabel y))
    end.
(** [y.lastrank(axis, decay)]: la/deflarry.py:1586-1657.  Simplification: the
    axis is a number. *)
Definition larry_lastrank_decay (exp : num -> num) (y : larry) (axis : Z) (decay : num) : res out :=
  _ ← of_opt IndexError (py_index (lndim y) axis);
  if decide (lsize y = 0) then reduce_nums (fun _ => NaN) IndexError y (Some axis)
  else if num_ltb (num_of_Z 0) decay then
    reduce_nums (lastrank_decay_lane exp decay) IndexError y (Some axis)
  else if num_ltb decay (num_of_Z 0) then Err ValueError
  else larry_lastrank y axis.

(** * geometric_mean *)

(** One lane: la/farray/misc.py:19-35. *)
Definition geometric_lane (log exp : num -> num) (ns : list num) : num :=
  let m := num_of_nat (length (filter (fun n => is_nan n = false) ns)) in
  let x := (fun n => if is_nan n then num_of_Z 1 else n) <$> ns in
  let s := fold_left num_add (log <$> x) (num_of_Z 0) in
  let g := num_div (num_of_Z 1) m in
  let r := exp (num_mul g s) in
  num_mul r (if num_eqb m (num_of_Z 0) then NaN else num_of_Z 1).
(** [y.geometric_mean(axis, check)]: la/deflarry.py:1200-1233 and
    la/farray/misc.py:9-35. *)
Definition larry_geometric_mean (log exp : num -> num) (y : larry) (axis : option Z) (check : bool) : res out :=
  if decide (lsize y = 0) then reduce_nums (fun _ => NaN) ValueError y axis
  else
    _ ← check_numeric (lx y);
    if check && existsb (fun n => num_leb n (num_of_Z 0)) (omap to_num (data (larr y))) then Err ValueError
    else reduce_nums (geometric_lane log exp) ValueError y axis.

(** * correlation *)

(** [num / den] with [num = sum(x1 * x2)] and
    [den = sqrt(sum(x1**2) * sum(x2**2))]. *)
Definition corr_ratio (sum : list num -> num) (sqrt : num -> num) (x1 x2 : list num) : num :=
  num_div (sum (zip_with num_mul x1 x2))
          (sqrt (num_mul (sum ((fun a => num_mul a a) <$> x1)) (sum ((fun a => num_mul a a) <$> x2)))).
Definition plain_sum (l : list num) : num := fold_left num_add l (num_of_Z 0).
(** One lane of two arrays without NaN: la/farray/misc.py:114-133; or the
    flattened arrays with the NaN pairs taken out: 82-92. *)
Definition corr_plain (sqrt : num -> num) (ps : list (num * num)) : num :=
  let x1 := (fun a => num_sub a (num_mean ps.*1)) <$> ps.*1 in
  let x2 := (fun a => num_sub a (num_mean ps.*2)) <$> ps.*2 in
  corr_ratio plain_sum sqrt x1 x2.
Definition corr_flat (sqrt : num -> num) (ps : list (num * num)) : num :=
  corr_plain sqrt (filter (fun p => is_nan p.1 || is_nan p.2 = false) ps).
(** One lane of two arrays with NaN: la/farray/misc.py:94-107. *)
Definition nan_sum (l : list num) : num := float_red RSum (filter (fun n => n <> NaN) l).
Definition corr_nan (sqrt : num -> num) (ps : list (num * num)) : num :=
  let x1 := (fun p : num * num => if is_nan p.1 || is_nan p.2 then NaN else p.1) <$> ps in
  let x2 := (fun p : num * num => if is_nan p.1 || is_nan p.2 then NaN else p.2) <$> ps in
  corr_ratio nan_sum sqrt (centre_lane RMean x1) (centre_lane RMean x2).

(** [correlation(arr1, arr2, axis)]: la/farray/misc.py:37-134.
    Simplifications: the arrays have one shape; for 1d arrays the axis, if given,
    is 0 (with axis -1 a numpy scalar is indexed with a list, which depends on the
    version of numpy). *)
Definition correlation (sqrt : num -> num) (x1 x2 : nda) (axis : option Z) : res nda :=
  _ ← check_numeric x1;
  _ ← check_numeric x2;
  if decide (nd_shape x1 <> nd_shape x2) then Err NotImplementedError else
  n1 ← of_opt TypeError (mapM to_num (data (nd_arr x1)));
  n2 ← of_opt TypeError (mapM to_num (data (nd_arr x2)));
  let pairs := Arr (nd_shape x1) (zip n1 n2) in
  let mask := existsb (fun p => is_nan p.1 || is_nan p.2) (data pairs) in
  match axis with
  | None => Ok (Nda DFloat (Arr [] [VFloat ((if mask then corr_flat sqrt else corr_plain sqrt) (data pairs))]))
  | Some a =>
      if decide (nd_ndim x1 = 1 /\ a <> 0%Z) then Err NotImplementedError else
      _ ← (if mask then store (nd_dtype x1) (VFloat NaN) else Ok VNone);
      _ ← (if mask then store (nd_dtype x2) (VFloat NaN) else Ok VNone);
      ax ← of_opt ValueError (norm_axis (nd_ndim x1) a);
      b ← of_opt ValueError (reduce (fun ps => VFloat ((if mask then corr_nan sqrt else corr_plain sqrt) ps)) pairs ax);
      Ok (Nda DFloat b)
  end.

(** * Elementwise functions *)

(** [log], [exp], [sqrt]: la/deflarry.py:142-216.  Simplification: object
    arrays are not modelled. *)
Definition larry_ufunc (f : num -> num) (y : larry) : res larry :=
  match ldtype y with
  | DFloat | DInt | DBool =>
      Ok (Larry (Nda DFloat (amap (fun v => match to_num v with Some n => VFloat (f n) | None => v end) (larr y))) (llabel y))
  | DStr => Err TypeError
  | DObj => Err NotImplementedError
  end.
(** [power], [**]: la/deflarry.py:246-291.  Simplifications: [q] is a float, or
    data and [q] are integers and [q] is not negative. *)
Definition larry_power (pow : num -> num -> num) (y : larry) (q : val) : res larry :=
  match ldtype y, q with
  | (DFloat | DInt | DBool), VFloat e => larry_ufunc (fun n => pow n e) y
  | DFloat, VInt z => larry_ufunc (fun n => pow n (num_of_Z z)) y
  | DInt, VInt z =>
      if decide (z < 0)%Z then Err NotImplementedError
      else Ok (Larry (Nda DInt (amap (fun v => match v with VInt a => VInt (a ^ z) | _ => v end) (larr y))) (llabel y))
  | DStr, _ => Err TypeError
  | _, _ => Err NotImplementedError
  end.
