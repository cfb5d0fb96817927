(** Conversion of dtypes: la/deflarry.py:4155-4195 and the [dtype] argument of
    the constructor, 96-107. *)
From Verif Require Export SpecAstype Larry.

(** One element of an array of dtype [dt] in [x.astype(dt')].
    Simplifications: ints are unbounded; NaN and infinities in an int array
    (numpy leaves it to the machine), texts for numbers and numbers for texts,
    and objects other than for object arrays are not modelled. *)
Definition cast (dt dt' : dtype) (v : val) : res val :=
  if decide (dt = dt') then Ok v else
  match dt with
  | DFloat | DInt | DBool =>
      match dt', v with
      | DFloat, _ => Ok (val_to_float v)
      | DInt, VFloat (Fin q) => Ok (VInt (Qc_trunc q))
      | DInt, VBool b => Ok (VInt (if b then 1 else 0))
      | DBool, _ => Ok (VBool (val_truth v))
      | DObj, _ => Ok v
      | _, _ => Err NotImplementedError
      end
  | _ => match dt' with DObj => Ok v | _ => Err NotImplementedError end
  end.
(** [x.astype(dtype)] of an array. *)
Definition np_astype (x : nda) (dt : dtype) : res nda :=
  vs ← mapR (cast (nd_dtype x) dt) (data (nd_arr x));
  Ok (Nda dt (Arr (nd_shape x) vs)).
(** [y.astype(dtype)]: la/deflarry.py:4193-4195. *)
Definition larry_astype (y : larry) (dt : dtype) : res larry :=
  x ← np_astype (lx y) dt;
  Ok (Larry x (llabel y)).
(** [larry(x, label, dtype)] of an array: la/deflarry.py:106-138. *)
Definition make_dtype (x : nda) (label : option (list (list lab))) (dt : option dtype) : res larry :=
  x ← match dt with None => Ok x | Some dt => np_astype x dt end;
  make x label.
