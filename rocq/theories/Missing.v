(** la/missing.py: missing value markers; and the methods built directly on
    them. *)
From Verif Require Export Larry.

(** [missing_marker(data)]: la/missing.py:65-107.  [None] is the Python
    constant [NotImplemented]. *)
Definition missing_marker (dt : dtype) : option val :=
  match dt with
  | DFloat => Some (VFloat NaN)
  | DStr => Some (VStr EmptyString)
  | DBool => None
  | DObj => Some VNone
  | DInt => None
  end.

(** [nans(shape, dtype)]: la/missing.py:7-63. *)
Definition nans (sh : list nat) (dt : dtype) : res nda :=
  match dt with
  | DFloat => Ok (Nda dt (full sh (VFloat NaN)))
  | DStr => Ok (Nda dt (full sh (VStr EmptyString)))
  | DBool => Err TypeError
  | DObj => Ok (Nda dt (full sh VNone))
  | DInt => Err TypeError
  end.

(** [np.isnan] on one float element. *)
Definition val_isnan (v : val) : bool := match v with VFloat NaN => true | _ => false end.

(** [ismissing(data)]: la/missing.py:109-157.  [mm != mm] holds for NaN only;
    [x == [mm]] compares elementwise. *)
Definition ismissing (x : nda) : arr bool :=
  match missing_marker (nd_dtype x) with
  | None => full (nd_shape x) false
  | Some mm =>
      if val_isnan mm then amap val_isnan (nd_arr x)
      else amap (fun v => bool_decide (v = mm)) (nd_arr x)
  end.

(** A bool array as an ndarray. *)
Definition bool_nda (m : arr bool) : nda := Nda DBool (amap VBool m).

(** [y.ismissing()]: la/deflarry.py:3870-3929. *)
Definition larry_ismissing (y : larry) : larry := Larry (bool_nda (ismissing (lx y))) (llabel y).

(** [y.nan_replace(replace_with)]: la/deflarry.py:4062-4079.  [bn.replace]
    with [old = nan] leaves arrays without floats as they are; the compiled
    versions for float and int arrays first convert [replace_with] to a C
    double.  Simplification: for float arrays with more than three axes and a
    string that exception is a ValueError. *)
Definition nan_replace (y : larry) (replace_with : val) : res larry :=
  match ldtype y with
  | DFloat =>
      r ← of_opt TypeError (to_num replace_with);
      Ok (Larry (Nda DFloat (amap (fun v => if val_isnan v then VFloat r else v) (larr y))) (llabel y))
  | DInt => _ ← of_opt TypeError (to_num replace_with); Ok (larry_copy y)
  | _ => Ok (larry_copy y)
  end.

(** [x[index] = v] where [index] is the list [ids] at axis [ax] and a full
    slice elsewhere. *)
Definition put_axis (x : nda) (ids : list nat) (ax : nat) (v : val) : res nda :=
  n ← of_opt IndexError (axlen (nd_arr x) ax);
  if decide (Forall (fun i => i < n) ids) then
    v ← store (nd_dtype x) v;
    b ← of_opt IndexError
          (build (nd_shape x) (fun idx => k ← idx !! ax;
             if decide (k ∈ ids) then Some v else aget (nd_arr x) idx));
    Ok (Nda (nd_dtype x) b)
  else Err IndexError.

(** [x.take(idx, ax)] on an ndarray. *)
Definition nda_take (x : nda) (ids : list Z) (ax : nat) : res nda :=
  b ← np_take (nd_arr x) ids ax; Ok (Nda (nd_dtype x) b).
