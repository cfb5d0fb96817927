(** stack, panel, cov, sortby and the creation functions of la/flarry.py. *)
From Verif Require Export Align Index SpecCreate Flabel.
From stdpp Require Import sorting.

(** * stack *)

(** [stack(mode, **kwargs)]: la/flarry.py:1339-1405.  [kwargs] is the list of
    named larrys in dictionary order. *)
Fixpoint kw_get {A} (key : string) (kw : list (string * A)) : option A :=
  match kw with
  | [] => None
  | (k, a) :: kw' => if decide (k = key) then Some a else kw_get key kw'
  end.
Definition lab_str (l : lab) : option string := match l with LStr s => Some s | _ => None end.
Definition stack (mode : stack_mode) (kwargs : list (string * larry)) : res larry :=
  if forallb (fun p => bool_decide (lndim p.2 = 2)) kwargs then
    logic ← match mode with
            | SUnion => Ok union_labels
            | SInter => Ok intersection_labels
            | SBad => Err ValueError
            end;
    row ← logic 0%Z kwargs.*2;
    col ← logic 1%Z kwargs.*2;
    keys ← py_sorted (map (fun p => LStr p.1) kwargs);
    slabs ← mapR (fun key => name ← of_opt KeyError (lab_str key);
                             y ← of_opt KeyError (kw_get name kwargs);
                             y ← morph y row 0;
                             y ← morph y col 1;
                             mapR (store DFloat) (data (larr y))) keys;
    make (Nda DFloat (Arr [length kwargs; length row; length col] (concat slabs))) (Some [keys; row; col])
  else Err ValueError.

(** * panel *)

(** [a.reshape(sh, order='F')]: the elements are read and placed with the
    first index changing fastest. *)
Definition reshape_F {A} (a : arr A) (sh : list nat) : option (arr A) :=
  t ← transpose a;
  if decide (size_of sh = length (data t)) then transpose (Arr (reverse sh) (data t)) else None.
(** [panel(lar)]: la/flarry.py:1407-1469.  A dimension of -1 next to a zero
    cannot be inferred. *)
Definition panel (y : larry) : res larry :=
  match llabel y, lshape y with
  | [l0; l1; l2], [n; m; k] =>
      row ← flattenlabel [l1; l2] "C";
      t ← of_opt ValueError (transpose (larr y));
      if decide (n = 0) then Err ValueError
      else
        x ← of_opt ValueError (reshape_F t [m * k; n]);
        Ok (Larry (Nda (ldtype y) x) [LTup <$> row; l0])
  | _, _ => Err ValueError
  end.

(** * cov *)

(** The numbers of row [i]. *)
Definition row_nums (x : arr val) (i m : nat) : option (list num) :=
  mapM (fun j => v ← aget x [i; j]; to_num v) (seq 0 m).
Definition nan_to_0 (n : num) : num := if is_nan n then num_of_Z 0 else n.
Definition is_present (n : num) : num := if is_nan n then num_of_Z 0 else num_of_Z 1.
Definition dot (u v : list num) : num := foldr num_add (num_of_Z 0) (zip_with num_mul u v).
(** [np.dot] of two bool vectors is a bool. *)
Definition bool_dot (u v : list num) : num :=
  if existsb (fun n => negb (bool_decide (n = num_of_Z 0))) (zip_with num_mul u v) then num_of_Z 1 else num_of_Z 0.
(** [covMissing(R)]: la/farray/misc.py:136-160.  [np.isnan] needs numbers. *)
Definition cov_missing (x : nda) : res nda :=
  match nd_shape x with
  | [n; m] =>
      if decide (nd_dtype x = DFloat \/ nd_dtype x = DInt \/ nd_dtype x = DBool) then
        rows ← of_opt IndexError (mapM (fun i => row_nums (nd_arr x) i m) (seq 0 n));
        let dot1 := match nd_dtype x with DBool => bool_dot | _ => dot end in
        let R := map (map nan_to_0) rows in
        let P := map (map is_present) rows in
        if existsb (fun p => existsb (fun q => num_ltb (dot p q) (num_of_Z 2)) P) P then Err ValueError
        else
          c ← of_opt IndexError (build [n; n] (fun idx =>
                match idx with
                | [i; j] => r1 ← R !! i; r2 ← R !! j; p1 ← P !! i; p2 ← P !! j;
                            Some (VFloat (num_div (dot1 r1 r2) (dot p1 p2)))
                | _ => None
                end));
          Ok (Nda DFloat c)
      else Err TypeError
  | _ => Err ValueError
  end.
(** [cov(lar)]: la/flarry.py:1471-1502. *)
Definition larry_cov (y : larry) : res larry :=
  if decide (lndim y <> 2) then Err ValueError
  else
    l ← axis_label y 0;
    x ← cov_missing (lx y);
    Ok (Larry x [l; l]).

(** * sortby *)

(** [a[i, :]] and [a[:, j]] of a 2d array. *)
Definition get_row (a : arr val) (axis i : nat) : option (list val) :=
  n ← shape a !! (1 - axis);
  mapM (fun j => aget a (if decide (axis = 0) then [i; j] else [j; i])) (seq 0 n).
(** [sortby(lar, element, axis, reverse)]: la/flarry.py:1701-1765.  [argsort]
    is numpy's argsort, whose order of equal elements is unspecified.
    Simplification: object arrays are not sorted. *)
Definition sortby (argsort : list val -> list nat) (y : larry) (element : lab) (axis : Z) (rev : bool) : res larry :=
  if decide (lndim y <> 2) then Err ValueError
  else
    early ← (if decide (lsize y = 0) then l ← (ax ← py_axis y axis; axis_label y ax); Ok (bool_decide (element ∈ l))
             else Ok false);
    if (early : bool) then Ok (larry_copy y)
    else
      let axis := if decide (axis < 0)%Z then (axis + Z.of_nat (lndim y))%Z else axis in
      if decide (axis <> 0 /\ axis <> 1)%Z then Err ValueError
      else
        idx ← labelindex y element (Some axis) true;
        vs ← of_opt IndexError (get_row (larr y) (Z.to_nat axis) idx);
        if decide (ldtype y = DObj) then Err TypeError
        else
          let idx := argsort vs in
          let idx := if rev then reverse idx else idx in
          let l := IList (map Z.of_nat idx) in
          g ← larry_getitem y (XTuple (if decide (axis = 0)%Z then [ISlice slice_all; l] else [l; ISlice slice_all]));
          match g with
          | GLar z => Ok z
          | _ => Err TypeError
          end.

(** One possible argsort: a stable sort. *)
Definition val_rank (v : val) : nat :=
  match v with
  | VFloat NaN => 1
  | VFloat _ | VInt _ | VBool _ => 0
  | VStr _ => 2
  | VNone | VObj _ => 3
  end.
Definition val_order (v w : val) : Prop :=
  val_rank v < val_rank w \/
  val_rank v = val_rank w /\
  match v, w with
  | VStr s, VStr t => lab_le (LStr s) (LStr t)
  | _, _ => match to_num v, to_num w with Some n, Some m => num_ltb m n = false | _, _ => True end
  end.
Global Instance val_order_dec v w : Decision (val_order v w).
Proof.
  unfold val_order. apply or_dec; [apply _|]. apply and_dec; [apply _|].
  destruct v, w; apply _ || (simpl; repeat case_match; apply _).
Defined.
Definition pair_order (p q : val * nat) : Prop := val_order p.1 q.1.
Global Instance pair_order_dec p q : Decision (pair_order p q) := val_order_dec p.1 q.1.
Definition np_argsort (vs : list val) : list nat :=
  map snd (merge_sort pair_order (zip vs (seq 0 (length vs)))).

(** * Creation *)

(** The shape of a new larry (la/flarry.py:1844-1848 and 1928-1932). *)
Definition shape_of (shape : option (list nat)) (label : option (list (list lab))) : res (list nat) :=
  match label with
  | Some l => Ok (length <$> l)
  | None => of_opt ValueError shape
  end.
(** [start + step * k] with the type numpy gives it. *)
Definition range_elem (start step : val) (k : nat) : option val :=
  match start, step with
  | VInt a, VInt s => Some (VInt (a + s * Z.of_nat k))
  | VInt _, VFloat _ | VFloat _, VInt _ | VFloat _, VFloat _ =>
      a ← to_num start; s ← to_num step; Some (VFloat (num_add a (num_mul s (num_of_nat k))))
  | _, _ => None
  end.
Definition range_dtype (start step : val) : dtype :=
  match start, step with VInt _, VInt _ => DInt | _, _ => DFloat end.
(** The [k]-th element of [np.arange(..., dtype=dt)]: numpy stores the first
    two elements with the wanted type and continues with their difference. *)
Definition arange_elem (dt : dtype) (start step : val) (k : nat) : option val :=
  match dt with
  | DFloat => v ← range_elem start step k; Some (val_to_float v)
  | DInt =>
      v0 ← range_elem start step 0; v1 ← range_elem start step 1;
      match store DInt v0, store DInt v1 with
      | Ok (VInt a), Ok (VInt b) => Some (VInt (a + (b - a) * Z.of_nat k))
      | _, _ => None
      end
  | _ => None
  end.
(** [lrange(shape, label, start, step, dtype)]: la/flarry.py:1769-1852.  The
    length of [np.arange] is exact here because rounding is not modelled.
    Simplification: a step of zero, infinite or NaN arguments and types other
    than int and float are errors. *)
Definition lrange (shape : option (list nat)) (label : option (list (list lab))) (start step : val) (dt : option dtype) : res larry :=
  sh ← shape_of shape label;
  match to_num start, to_num step with
  | Some (Fin _), Some (Fin s) =>
      if decide (s = 0%Qc) then Err ValueError
      else
        let dt := match dt with Some d => d | None => range_dtype start step end in
        vs ← of_opt TypeError (mapM (arange_elem dt start step) (seq 0 (size_of sh)));
        make (Nda dt (Arr sh vs)) label
  | _, _ => Err ValueError
  end.
(** [empty(shape, label, dtype, order)]: la/flarry.py:1854-1934; [f] gives the
    uninitialised array of each shape.  The memory order is not modelled. *)
Definition larry_empty (f : list nat -> nda) (shape : option (list nat)) (label : option (list (list lab))) : res larry :=
  sh ← shape_of shape label;
  make (f sh) label.
(** [ones], [zeros]: la/flarry.py:1936-2088; [fill] overwrites every element.
    The default dtype is float. *)
Definition larry_fill_new (v : val) (f : list nat -> nda) (shape : option (list nat)) (label : option (list (list lab))) : res larry :=
  y ← larry_empty f shape label;
  larry_fill y v.
Definition larry_ones := larry_fill_new (VInt 1).
Definition larry_zeros := larry_fill_new (VInt 0).
(** [rand] and [randn]: la/flarry.py:1506-1699, with the
    random function as [f]; without shape and label one number is returned. *)
Definition larry_rand (f : list nat -> nda) (args : list nat) (label : option (list (list lab))) : res out :=
  match args, label with
  | [], None => v ← of_opt IndexError (aget (nd_arr (f [])) []); Ok (OVal v)
  | [], Some l => y ← make (f (length <$> l)) (Some l); Ok (OLar y)
  | _, _ => y ← make (f args) label; Ok (OLar y)
  end.
