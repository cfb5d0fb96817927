(** Elementwise operators of larry: la/deflarry.py:218-244, 464-1065,
    1659-1725; and la/flarry.py:653-1270 (binaryop and its shortcuts). *)
From Verif Require Export SpecOps Align.

(** * numpy elementwise functions *)

(** Result dtypes.  Simplifications: all widths of int (float) are one dtype;
    object arrays are not modelled (NotImplementedError); a ufunc without a
    loop for strings raises TypeError. *)
Definition arith_dtype (op : arith_op) (dt1 dt2 : dtype) : res dtype :=
  match dt1, dt2 with
  | DStr, _ | _, DStr => Err TypeError
  | DObj, _ | _, DObj => Err NotImplementedError
  | DFloat, _ | _, DFloat => Ok DFloat
  | DBool, DBool => Ok (match op with ADiv => DFloat | AFloorDiv | AOldDiv => DInt | _ => DBool end)
  | _, _ => Ok (match op with ADiv => DFloat | _ => DInt end)
  end.
Definition logic_dtype (dt1 dt2 : dtype) : res dtype :=
  match dt1, dt2 with
  | DStr, _ | _, DStr => Err TypeError
  | DObj, _ | _, DObj => Err NotImplementedError
  | _, _ => Ok DBool
  end.

Definition to_int (v : val) : option Z :=
  match v with VInt z => Some z | VBool b => Some (if b then 1 else 0)%Z | _ => None end.
Definition to_bool (v : val) : option bool := match v with VBool b => Some b | _ => None end.

(** Element functions for a given result dtype. *)
Definition float_arith (op : arith_op) (a b : num) : num :=
  match op with
  | AAdd => num_add a b
  | ASub => num_sub a b
  | AMul => num_mul a b
  | ADiv | AOldDiv => num_div a b
  | AFloorDiv => num_floor (num_div a b)
  end.
Definition int_arith (op : arith_op) (a b : Z) : option Z :=
  match op with
  | AAdd => Some (a + b)%Z
  | ASub => Some (a - b)%Z
  | AMul => Some (a * b)%Z
  | ADiv => None
  | AFloorDiv | AOldDiv => Some (if decide (b = 0) then 0 else a / b)%Z
  end.
Definition bool_arith (op : arith_op) (a b : bool) : option bool :=
  match op with
  | AAdd => Some (a || b)
  | ASub => Some (xorb a b)
  | AMul => Some (a && b)
  | ADiv | AFloorDiv | AOldDiv => None
  end.
Definition arith_elem (op : arith_op) (dt : dtype) (u v : val) : option val :=
  match dt with
  | DFloat => a ← to_num u; b ← to_num v; Some (VFloat (float_arith op a b))
  | DInt => a ← to_int u; b ← to_int v; c ← int_arith op a b; Some (VInt c)
  | DBool => a ← to_bool u; b ← to_bool v; c ← bool_arith op a b; Some (VBool c)
  | DStr | DObj => None
  end.
Definition logic_elem (op : logic_op) (u v : val) : option val :=
  Some (VBool (match op with LAnd => val_truth u && val_truth v | LOr => val_truth u || val_truth v end)).

Definition cmp_bool (op : cmp_op) (lt eq gt : bool) : bool :=
  match op with
  | CEq => eq | CNe => negb eq | CLt => lt | CGt => gt | CLe => lt || eq | CGe => gt || eq
  end.
Definition cmp_elem (op : cmp_op) (u v : val) : option val :=
  match u, v with
  | VStr s, VStr t => Some (VBool (cmp_bool op (String.ltb s t) (String.eqb s t) (String.ltb t s)))
  | _, _ =>
      a ← to_num u; b ← to_num v;
      Some (VBool (cmp_bool op (num_ltb a b) (num_eqb a b) (num_ltb b a)))
  end.

(** Broadcasting: shapes are aligned on the right, axes of length 1 are
    repeated. *)
Fixpoint bshape_rev (a b : list nat) : option (list nat) :=
  match a, b with
  | [], b => Some b
  | a, [] => Some a
  | m :: a', n :: b' =>
      d ← (if decide (m = n) then Some m
           else if decide (m = 1) then Some n
           else if decide (n = 1) then Some m else None);
      r ← bshape_rev a' b';
      Some (d :: r)
  end.
Definition bshape (a b : list nat) : option (list nat) := reverse <$> bshape_rev (reverse a) (reverse b).
Definition bindex (sh idx : list nat) : list nat :=
  zip_with (fun n i => if decide (n = 1) then 0 else i) sh (drop (length idx - length sh) idx).

(** Apply an element function to two broadcast arrays. *)
Definition elementwise (dt : dtype) (f : val -> val -> option val) (x y : nda) : res nda :=
  sh ← of_opt ValueError (bshape (nd_shape x) (nd_shape y));
  b ← of_opt TypeError
        (build sh (fun idx =>
           u ← aget (nd_arr x) (bindex (nd_shape x) idx);
           v ← aget (nd_arr y) (bindex (nd_shape y) idx);
           f u v));
  Ok (Nda dt b).

Definition np_arith (op : arith_op) (x y : nda) : res nda :=
  dt ← arith_dtype op (nd_dtype x) (nd_dtype y);
  elementwise dt (arith_elem op dt) x y.
Definition np_logic (op : logic_op) (x y : nda) : res nda :=
  dt ← logic_dtype (nd_dtype x) (nd_dtype y);
  elementwise dt (logic_elem op) x y.

(** Comparisons of numpy arrays return an array or, for [==] and [!=] between
    incomparable kinds or shapes, a Python bool ([inr]). *)
Definition np_compare (op : cmp_op) (x y : nda) : res (nda + bool) :=
  let scalar := match op with CEq => Ok (inr false) | CNe => Ok (inr true) | _ => Err TypeError end in
  match nd_dtype x, nd_dtype y with
  | DObj, _ | _, DObj => Err NotImplementedError
  | DStr, DStr | (DFloat | DInt | DBool), (DFloat | DInt | DBool) =>
      match elementwise DBool (cmp_elem op) x y, op with
      | Ok r, _ => Ok (inl r)
      | Err ValueError, CEq => Ok (inr false)
      | Err ValueError, CNe => Ok (inr true)
      | Err e, _ => Err e
      end
  | _, _ => scalar
  end.

(** A scalar as a 0d array; [np.isscalar] is false for None and other
    objects. *)
Definition scalar_dtype (v : val) : option dtype :=
  match v with
  | VFloat _ => Some DFloat | VInt _ => Some DInt | VBool _ => Some DBool | VStr _ => Some DStr
  | VNone | VObj _ => None
  end.
Definition scalar_nda (v : val) : res nda :=
  dt ← of_opt TypeError (scalar_dtype v); Ok (Nda dt (Arr [] [v])).

(** * Binary operators of larry *)

(** The common shape of [__add__] (646-688), [__sub__] (692-733), [__div__],
    [__truediv__] (739-839), [__floordiv__] (841-884), [__mul__] (910-952),
    [__and__] (956-996) and [__or__] (1000-1040); [f] is the numpy operator.
    All of [__div__], [__truediv__] (771-779, 828-836), [__rdiv__] and
    [__rtruediv__] (792, 894) use the [/] of this module, which in Python 2 has
    no [from __future__ import division]: [AOldDiv] there, [ADiv] in Python 3. *)
Definition larry_binary (f : nda -> nda -> res nda) (self : larry) (other : operand) : res larry :=
  match other with
  | OpLarry o =>
      if decide (llabel self = llabel o) then
        x ← f (lx self) (lx o); Ok (Larry x (llabel self))
      else
        r ← op_align self o;
        let '(x, y, label) := r in
        x ← f x y; Ok (Larry x label)
  | OpArr a => x ← f (lx self) a; Ok (Larry x (llabel self))
  | OpScalar v => a ← scalar_nda v; x ← f (lx self) a; Ok (Larry x (llabel self))
  | OpList _ | OpOther => Err TypeError
  end.
Definition larry_arith (op : arith_op) : larry -> operand -> res larry := larry_binary (np_arith op).
Definition larry_logic (op : logic_op) : larry -> operand -> res larry := larry_binary (np_logic op).

(** [__neg__]: la/deflarry.py:464-468.  In numpy before 1.13 the negative of
    a bool array is its logical not. *)
Definition np_neg (x : nda) : res nda :=
  match nd_dtype x with
  | DFloat => Ok (Nda DFloat (amap (fun v => match v with VFloat n => VFloat (num_neg n) | _ => v end) (nd_arr x)))
  | DInt => Ok (Nda DInt (amap (fun v => match v with VInt z => VInt (- z) | _ => v end) (nd_arr x)))
  | DBool => Ok (Nda DBool (amap (fun v => match v with VBool b => VBool (negb b) | _ => v end) (nd_arr x)))
  | DStr => Err TypeError
  | DObj => Err NotImplementedError
  end.
Definition larry_neg (y : larry) : res larry := x ← np_neg (lx y); Ok (Larry x (llabel y)).
(** [__pos__]: la/deflarry.py:470-472. *)
Definition larry_pos (y : larry) : larry := larry_copy y.

(** Reflected operators.  [__radd__], [__rmul__], [__rand__], [__ror__] are the
    direct ones (690, 954, 998, 1042); [__rsub__] is [-(self - other)]
    (735-737); [__rdiv__], [__rtruediv__], [__rfloordiv__] (784-794, 886-908)
    compute [other / self.x]. *)
Definition larry_rsub (self : larry) (other : operand) : res larry :=
  y ← larry_arith ASub self other; larry_neg y.
Definition larry_rdivide (op : arith_op) (self : larry) (other : operand) : res larry :=
  match other with
  | OpLarry _ => Err RuntimeError
  | OpArr a => x ← np_arith op a (lx self); Ok (Larry x (llabel self))
  | OpScalar v => a ← scalar_nda v; x ← np_arith op a (lx self); Ok (Larry x (llabel self))
  | OpList _ | OpOther => Err TypeError
  end.
Definition larry_rarith (op : arith_op) (self : larry) (other : operand) : res larry :=
  match op with
  | AAdd | AMul => larry_arith op self other
  | ASub => larry_rsub self other
  | ADiv | AFloorDiv | AOldDiv => larry_rdivide op self other
  end.

(** What [/] means in la/deflarry.py, which has no [from __future__ import
    division], and the numpy function [np.divide] in la/flarry.py. *)
Inductive python := Py2 | Py3.
Definition slash (py : python) : arith_op := match py with Py2 => AOldDiv | Py3 => ADiv end.
(** [__truediv__] and [__rtruediv__]: la/deflarry.py:796-839, 886-896. *)
Definition larry_truediv (py : python) (self : larry) (other : operand) : res larry :=
  larry_arith (slash py) self other.
Definition larry_rtruediv (py : python) (self : larry) (other : operand) : res larry :=
  larry_rdivide (slash py) self other.

(** [__compare]: la/deflarry.py:1685-1725. *)
Definition larry_compare (op : cmp_op) (self : larry) (other : operand) : res out :=
  let with_array a :=
    r ← np_compare op (lx self) a;
    Ok (match r with inl x => OLar (Larry x (llabel self)) | inr b => OVal (VBool b) end) in
  match other with
  | OpScalar v => a ← scalar_nda v; with_array a
  | OpArr a | OpList a => with_array a
  | OpLarry o =>
      r ← op_align self o;
      let '(x, y, label) := r in
      r ← np_compare op x y;
      Ok (OLar (Larry (match r with inl x => x | inr b => Nda DBool (Arr [] [VBool b]) end) label))
  | OpOther => Err TypeError
  end.

(** * Elementwise methods *)

(** [abs]: la/deflarry.py:474-510. *)
Definition larry_abs (y : larry) : res larry :=
  match ldtype y with
  | DFloat => Ok (Larry (Nda DFloat (amap (fun v => match v with VFloat n => VFloat (num_abs n) | _ => v end) (larr y))) (llabel y))
  | DInt => Ok (Larry (Nda DInt (amap (fun v => match v with VInt z => VInt (Z.abs z) | _ => v end) (larr y))) (llabel y))
  | DBool => Ok y
  | DStr => Err TypeError
  | DObj => Err NotImplementedError
  end.
(** [sign]: la/deflarry.py:218-244; a bool array becomes int. *)
Definition larry_sign (y : larry) : res larry :=
  match ldtype y with
  | DFloat => Ok (Larry (Nda DFloat (amap (fun v => match v with VFloat n => VFloat (num_sign n) | _ => v end) (larr y))) (llabel y))
  | DInt => Ok (Larry (Nda DInt (amap (fun v => match v with VInt z => VInt (Z.sgn z) | _ => v end) (larr y))) (llabel y))
  | DBool => Ok (Larry (Nda DInt (amap (fun v => match v with VBool b => VInt (if b then 1 else 0) | _ => v end) (larr y))) (llabel y))
  | DStr => Err TypeError
  | DObj => Err NotImplementedError
  end.
(** [isnan], [isfinite], [isinf]: la/deflarry.py:512-591. *)
Definition np_test (p : num -> bool) (x : nda) : res nda :=
  match nd_dtype x with
  | DFloat | DInt | DBool =>
      Ok (Nda DBool (amap (fun v => match to_num v with Some n => VBool (p n) | None => v end) (nd_arr x)))
  | DStr | DObj => Err TypeError
  end.
Definition larry_isnan (y : larry) : res larry := x ← np_test is_nan (lx y); Ok (Larry x (llabel y)).
Definition larry_isfinite (y : larry) : res larry := x ← np_test is_finite (lx y); Ok (Larry x (llabel y)).
Definition larry_isinf (y : larry) : res larry := x ← np_test is_inf (lx y); Ok (Larry x (llabel y)).
(** [invert]: la/deflarry.py:593-637. *)
Definition larry_invert (y : larry) : res larry :=
  match ldtype y with
  | DBool => Ok (Larry (Nda DBool (amap (fun v => match v with VBool b => VBool (negb b) | _ => v end) (larr y))) (llabel y))
  | _ => Err TypeError
  end.

(** * binaryop *)

(** [np.putmask(x, mask, v)] for a scalar [v], guarded by [mask.any()]. *)
Definition put_scalar (x : nda) (mask : arr bool) (v : val) : res nda :=
  if existsb id (data mask) then
    r ← store (nd_dtype x) v;
    Ok (Nda (nd_dtype x) (azip (fun (m : bool) u => if m then r else u) mask (nd_arr x)))
  else Ok x.

(** [binaryop(func, lar1, lar2, join, cast, missone, misstwo)]:
    la/flarry.py:655-788.  [None] stands for 'ignore'.  The result labels are
    the aligned ones; [None] for a skipped axis (see [align_raw]).
    Simplification: filling missing values when a skipped axis leaves arrays of
    different shapes is not modelled (NotImplementedError). *)
Definition binaryop (func : nda -> nda -> res nda) (lar1 lar2 : larry) (j : join_arg) (cast : bool)
    (missone misstwo : option val) : res (nda * list (option (list lab))) :=
  st ← align_raw lar1 lar2 j cast;
  let x1 := al_x1 st in
  let x2 := al_x2 st in
  let miss1 := ismissing x1 in
  let miss2 := ismissing x2 in
  if decide ((missone <> None \/ misstwo <> None) /\ nd_shape x1 <> nd_shape x2) then Err NotImplementedError else
  p ← match missone with
      | None => Ok (x1, x2)
      | Some v =>
          x1 ← put_scalar x1 (azip (fun a b => a && negb b) miss1 miss2) v;
          x2 ← put_scalar x2 (azip (fun a b => a && negb b) miss2 miss1) v;
          Ok (x1, x2)
      end;
  q ← match misstwo with
      | None => Ok p
      | Some v =>
          let both := azip andb miss1 miss2 in
          x1 ← put_scalar p.1 both v;
          x2 ← put_scalar p.2 both v;
          Ok (x1, x2)
      end;
  x ← func q.1 q.2;
  Ok (x, al_label st).

(** [add], [subtract], [multiply], [divide]: la/flarry.py:790-1270.
    [np.divide] is true division in Python 3 and the old one in Python 2. *)
Definition larry_add := binaryop (np_arith AAdd).
Definition larry_subtract := binaryop (np_arith ASub).
Definition larry_multiply := binaryop (np_arith AMul).
Definition larry_divide := binaryop (np_arith ADiv).
Definition larry_divide2 := binaryop (np_arith AOldDiv).
