(** Numeric methods of larry: la/deflarry.py:293-462 (cumsum, cumprod, clip),
    1067-1584 (reductions), 3931-4060 (cut_missing, push, vacuum), and
    la/farray/normalize.py:201-223 (push). *)
From Verif Require Export SpecNum Ops.

(** [np.putmask(x, mask, v)] for a scalar [v]; [v] is converted to the dtype
    of [x] even if the mask is nowhere true. *)
Definition putmask_scalar (x : nda) (mask : arr bool) (v : val) : res nda :=
  r ← store (nd_dtype x) v;
  Ok (Nda (nd_dtype x) (azip (fun (m : bool) u => if m then r else u) mask (nd_arr x))).

(** [np.isnan(x)], [np.isfinite(x)] as masks. *)
Definition test_mask (p : num -> bool) (x : nda) : res (arr bool) :=
  match nd_dtype x with
  | DFloat | DInt | DBool => Ok (amap (fun v => match to_num v with Some n => p n | None => false end) (nd_arr x))
  | DStr | DObj => Err TypeError
  end.

(** * Accumulations *)

(** Running totals of a list. *)
Fixpoint scan_from {A} (f : A -> A -> A) (acc : A) (l : list A) : list A :=
  match l with
  | [] => []
  | x :: l' => f acc x :: scan_from f (f acc x) l'
  end.
Definition scan {A} (f : A -> A -> A) (l : list A) : list A :=
  match l with [] => [] | x :: l' => x :: scan_from f x l' end.

Definition cum_num (op : cum_op) : num -> num -> num := match op with CSum => num_add | CProd => num_mul end.
Definition cum_int (op : cum_op) : Z -> Z -> Z := match op with CSum => Z.add | CProd => Z.mul end.
(** Elements of one dtype are combined in that dtype. *)
Definition cum_val (op : cum_op) (u v : val) : val :=
  match u, v with
  | VFloat a, VFloat b => VFloat (cum_num op a b)
  | VInt a, VInt b => VInt (cum_int op a b)
  | _, _ => u
  end.

(** The array with bool elements read as int (numpy sums and multiplies bool
    arrays as int). *)
Definition bool_to_int (x : nda) : nda :=
  match nd_dtype x with
  | DBool => Nda DInt (amap (fun v => match v with VBool b => VInt (if b then 1 else 0) | _ => v end) (nd_arr x))
  | _ => x
  end.

(** [x.cumsum(axis)], [x.cumprod(axis)] of numpy. *)
Definition np_cum (op : cum_op) (x : nda) (axis : Z) : res nda :=
  ax ← of_opt ValueError (norm_axis (nd_ndim x) axis);
  let x := bool_to_int x in
  b ← of_opt ValueError (along (scan (cum_val op)) (nd_arr x) ax);
  Ok (Nda (nd_dtype x) b).

(** [cumsum], [cumprod]: la/deflarry.py:293-356, 358-422. *)
Definition larry_cum (op : cum_op) (y : larry) (axis : option Z) : res larry :=
  match axis with
  | None => Err ValueError
  | Some axis =>
      idx ← test_mask is_nan (lx y);
      x ← putmask_scalar (lx y) idx (VInt (match op with CSum => 0 | CProd => 1 end));
      x ← np_cum op x axis;
      x ← (if any_true idx then putmask_scalar x idx (VFloat NaN) else Ok x);
      Ok (Larry x (llabel y))
  end.
Definition cumsum := larry_cum CSum.
Definition cumprod := larry_cum CProd.

(** [clip]: la/deflarry.py:424-462.  Simplifications: float data with any
    numerical bounds, int data with int bounds; the other combinations (which
    numpy clips in another dtype and casts back) are not modelled. *)
Definition clip_num (lo hi n : num) : num := if num_ltb n lo then lo else if num_ltb hi n then hi else n.
Definition larry_clip (y : larry) (lo hi : val) : res larry :=
  l ← of_opt TypeError (to_num lo);
  h ← of_opt TypeError (to_num hi);
  if num_ltb h l then Err ValueError else
  match ldtype y, lo, hi with
  | DFloat, _, _ =>
      Ok (Larry (Nda DFloat (amap (fun v => match v with VFloat n => VFloat (clip_num l h n) | _ => v end) (larr y))) (llabel y))
  | DInt, VInt a, VInt b =>
      Ok (Larry (Nda DInt (amap (fun v => match v with VInt z => VInt (if decide (z < a)%Z then a else if decide (b < z)%Z then b else z) | _ => v end) (larr y))) (llabel y))
  | _, _, _ => Err NotImplementedError
  end.

(** * Reductions *)

(** The elements of a lane as numbers, without NaNs. *)
Definition lane_nums (l : list val) : list num := filter (fun n => n <> NaN) (omap to_num l).
Definition lane_ints (l : list val) : list Z := omap to_int l.

Definition fold1 {A} (f : A -> A -> A) (d : A) (l : list A) : A :=
  match l with [] => d | x :: l' => fold_left f l' x end.

Definition num_max (a b : num) : num := if num_ltb a b then b else a.
Definition num_min (a b : num) : num := if num_ltb b a then b else a.

Fixpoint num_insert (x : num) (l : list num) : list num :=
  match l with [] => [x] | y :: l' => if num_leb x y then x :: l else y :: num_insert x l' end.
Definition num_sort (l : list num) : list num := foldr num_insert [] l.

Definition num_median (l : list num) : num :=
  let s := num_sort l in
  let n := length s in
  let hi := default NaN (s !! (n / 2)) in
  if Nat.odd n then hi else num_div (num_add (default NaN (s !! (n / 2 - 1))) hi) (num_of_Z 2).
Definition num_mean (l : list num) : num := num_div (fold_left num_add l (num_of_Z 0)) (num_of_nat (length l)).
Definition num_var (ddof : Z) (l : list num) : num :=
  let m := num_mean l in
  num_div (fold_left num_add ((fun n => let d := num_sub n m in num_mul d d) <$> l) (num_of_Z 0))
          (num_of_Z (Z.of_nat (length l) - ddof)).

(** Dtype of the result of Bottleneck's nansum, nanmean, nanmedian, nanvar,
    nanmax, nanmin and numpy's prod, any, all.  Simplification: object arrays
    are not modelled; strings have none of these reductions. *)
Definition red_dtype (op : red_op) (dt : dtype) : res dtype :=
  match dt with
  | DStr => Err TypeError
  | DObj => Err NotImplementedError
  | _ =>
      Ok (match op, dt with
          | (RAny | RAll), _ => DBool
          | (RMean | RMedian | RVar _), _ => DFloat
          | (RSum | RProd), DBool => DInt
          | _, _ => dt
          end)
  end.

(** Reduction of one lane of an array of dtype [dt].  Bottleneck 0.7 skips NaN
    and gives NaN when nothing is left; [np.prod] does not skip NaN. *)
Definition float_red (op : red_op) (l : list num) : num :=
  match l with
  | [] => NaN
  | _ =>
      match op with
      | RSum => fold_left num_add l (num_of_Z 0)
      | RMean => num_mean l
      | RMedian => num_median l
      | RVar ddof => num_var ddof l
      | RMax => fold1 num_max NaN l
      | RMin => fold1 num_min NaN l
      | RProd | RAny | RAll => NaN
      end
  end.
Definition red_lane (op : red_op) (dt : dtype) (l : list val) : val :=
  match op, dt with
  | RAny, _ => VBool (existsb val_truth l)
  | RAll, _ => VBool (forallb val_truth l)
  | RProd, DFloat => VFloat (fold_left num_mul (omap to_num l) (num_of_Z 1))
  | RProd, _ => VInt (fold_left Z.mul (lane_ints l) 1%Z)
  | RSum, (DInt | DBool) => VInt (fold_left Z.add (lane_ints l) 0%Z)
  | RMax, DInt => VInt (fold1 Z.max 0%Z (lane_ints l))
  | RMin, DInt => VInt (fold1 Z.min 0%Z (lane_ints l))
  | RMax, DBool => VBool (existsb val_truth l)
  | RMin, DBool => VBool (forallb val_truth l)
  | _, _ => VFloat (float_red op (lane_nums l))
  end.

(** A 0d array is returned as its element ([np.isscalar]). *)
Definition as_out (x : nda) (label : list (list lab)) : res out :=
  match nd_shape x with
  | [] => v ← of_opt IndexError (aget (nd_arr x) []); Ok (OVal v)
  | _ => Ok (OLar (Larry x label))
  end.

(** [__reduce]: la/deflarry.py:1461-1492.  Simplification: [x.fill(nan)] on
    an int array raises (some numpy versions store an arbitrary number). *)
Definition larry_reduce (op : red_op) (y : larry) (axis : option Z) : res out :=
  if decide (lsize y = 0) then
    match axis with
    | None => Ok (OVal (red_default op))
    | Some a =>
        ax ← of_opt IndexError (py_index (lndim y) a);
        let sh := remove_at ax (lshape y) in
        match sh with
        | [] => Ok (OVal (red_default op))
        | _ =>
            let dt := match op with RAny | RAll => DBool | _ => ldtype y end in
            v ← store dt (red_default op);
            Ok (OLar (Larry (Nda dt (full sh v)) (remove_at ax (llabel y))))
        end
    end
  else
    dt ← red_dtype op (ldtype y);
    match axis with
    | None => Ok (OVal (red_lane op (ldtype y) (data (larr y))))
    | Some a =>
        ax ← of_opt ValueError (py_index (lndim y) a);
        b ← of_opt ValueError (reduce (red_lane op (ldtype y)) (larr y) ax);
        as_out (Nda dt b) (remove_at ax (llabel y))
    end.

(** [sum], [mean], [median], [var], [max], [min], [any], [all]:
    la/deflarry.py:1069-1103, 1169-1198, 1235-1270, 1330-1459, 1494-1584. *)
Definition larry_sum := larry_reduce RSum.
Definition larry_mean := larry_reduce RMean.
Definition larry_median := larry_reduce RMedian.
Definition larry_var (y : larry) (axis : option Z) (ddof : Z) := larry_reduce (RVar ddof) y axis.
Definition larry_max := larry_reduce RMax.
Definition larry_min := larry_reduce RMin.
Definition larry_any := larry_reduce RAny.
Definition larry_all := larry_reduce RAll.
(** [std]: la/deflarry.py:1272-1328; the square root is a parameter. *)
Definition larry_std (sqrt : num -> num) (y : larry) (axis : option Z) (ddof : Z) : res out :=
  r ← larry_var y axis ddof;
  let root v := match v with VFloat n => VFloat (sqrt n) | _ => v end in
  Ok (match r with
      | OVal v => if decide (lsize y = 0) then OVal v else OVal (root v)
      | OLar z => if decide (lsize y = 0) then OLar z else OLar (Larry (Nda (ldtype z) (amap root (larr z))) (llabel z))
      end).

(** [prod]: la/deflarry.py:1105-1167. *)
Definition larry_prod (y : larry) (axis : option Z) : res out :=
  idx ← test_mask is_nan (lx y);
  x ← putmask_scalar (lx y) idx (VInt 1);
  r ← larry_reduce RProd (Larry x (llabel y)) axis;
  match axis with
  | None => Ok (if forallb id (data idx) then OVal (VFloat NaN) else r)
  | Some a =>
      ax ← of_opt ValueError (py_index (lndim y) a);
      m ← of_opt ValueError (reduce (forallb id) idx ax);
      match shape m, r with
      | [], _ => Ok (if forallb id (data m) then OVal (VFloat NaN) else r)
      | _, OLar z => x ← putmask_scalar (lx z) m (VFloat NaN); Ok (OLar (Larry x (llabel z)))
      | _, OVal _ => Err TypeError
      end
  end.

(** * Cutting slices *)

(** [x[idxsl]] where [idxsl] holds one index array per axis, each reshaped
    along its own axis. *)
Fixpoint lookup_all {A} (ids : list (list A)) (idx : list nat) : option (list A) :=
  match ids, idx with
  | [], [] => Some []
  | l :: ids', i :: idx' => x ← l !! i; r ← lookup_all ids' idx'; Some (x :: r)
  | _, _ => None
  end.
Definition outer_take {A} (a : arr A) (ids : list (list nat)) : option (arr A) :=
  gather a (length <$> ids) (lookup_all ids).

(** The elements of the slice at position [i] of axis [ax]
    ([np.rollaxis(x, ax, 0)[i]]). *)
Definition slice_elems {A} (a : arr A) (ax i : nat) : option (list A) :=
  mapM (fun idx => aget a (insert_at ax i idx)) (indices (remove_at ax (shape a))).

(** Positions along [ax] whose slice satisfies [p]. *)
Definition slice_test {A} (p : list A -> bool) (a : arr A) (ax : nat) : res (list nat) :=
  n ← of_opt IndexError (axlen a ax);
  positions (fun i => l ← of_opt IndexError (slice_elems a ax i); Ok (p l)) (seq 0 n).

(** Common loop of [cut_missing] (3960-3983) and [vacuum] (4039-4059): cut
    along the axes satisfying [cut], keep positions whose slice of [isfinite]
    satisfies [p]. *)
Definition cut_slices (p : list bool -> bool) (cut : nat -> bool) (y : larry) : res larry :=
  ids ← mapR (fun ax =>
          n ← of_opt IndexError (axlen (larr y) ax);
          if cut ax then m ← test_mask is_finite (lx y); slice_test p m ax
          else Ok (seq 0 n)) (seq 0 (lndim y));
  label ← mapR (fun q : list lab * list nat => of_opt IndexError (mapM (q.1 !!.) q.2)) (zip (llabel y) ids);
  b ← of_opt IndexError (outer_take (larr y) ids);
  Ok (Larry (Nda (ldtype y) b) label).

(** [vacuum(axis)]: la/deflarry.py:4000-4060. *)
Definition vacuum (y : larry) (axis : axes_arg) : res larry :=
  let cut ax :=
    match axis with
    | AxNone => true
    | AxInt a => negb (bool_decide (Z.of_nat ax = a))
    | AxTuple l => negb (bool_decide (Z.of_nat ax ∈ l))
    end in
  cut_slices (existsb id) cut y.

(** [cut_missing(fraction, axis)]: la/deflarry.py:3931-3989. *)
Definition enough (fraction : num) (l : list bool) : bool :=
  num_ltb (num_mul (num_sub (num_of_Z 1) fraction) (num_of_nat (length l)))
          (num_of_nat (length (filter (fun b => b = true) l))).
Definition cut_missing (y : larry) (fraction : num) (axis : option Z) : res larry :=
  keep ← match axis with
         | None => Ok (seq 0 (lndim y))
         | Some a => k ← of_opt IndexError (py_index (lndim y) a); Ok [k]
         end;
  z ← cut_slices (enough fraction) (fun ax => negb (bool_decide (ax ∈ keep))) y;
  if decide (lsize z = 0) then Ok empty_larry else Ok z.

(** * push *)

(** One lane of [push(x, n, axis)]: la/farray/normalize.py:201-223.  The
    state is the most recent finite value (or NaN) and its position. *)
Fixpoint push_from (n : Z) (i : nat) (recent : val) (count : option nat) (l : list val) : list val :=
  match l with
  | [] => []
  | v :: l' =>
      let recent := match count with
                    | Some c => if decide (n < Z.of_nat i - Z.of_nat c)%Z then VFloat NaN else recent
                    | None => recent
                    end in
      if val_isfinite v then v :: push_from n (S i) v (Some i) l'
      else recent :: push_from n (S i) recent count l'
  end.
Definition push_lane (n : Z) (l : list val) : list val := push_from n 0 (VFloat NaN) None l.

(** [push(window, axis)]: la/deflarry.py:3991-3998.  [y[idx, i]] with a bool
    array [idx] is taken to select the lanes where [idx] is true. *)
Definition larry_push (y : larry) (window : Z) (axis : Z) : res larry :=
  match ldtype y with
  | DStr | DObj => Err TypeError
  | _ =>
      ax ← of_opt ValueError (norm_axis (lndim y) axis);
      b ← of_opt ValueError (along (push_lane window) (larr y) ax);
      Ok (Larry (Nda (ldtype y) b) (llabel y))
  end.
