(** [assert_larry_equal] (la/util/testing.py:10-209), with numpy.testing of
    numpy 1.6 to 1.8. *)
From Verif Require Export Unique Testing SpecEqual.

(** [np.rint]: to the nearest integer, halves to the even one. *)
Definition rint (q : Qc) : Z :=
  let f := Qround.Qfloor (this q) in
  let r := (q - Qc_of_Z f)%Qc in
  if Qc_ltb r (Q2Qc (1 # 2)) then f
  else if Qc_ltb (Q2Qc (1 # 2)) r then (f + 1)%Z
  else if Z.even f then f else (f + 1)%Z.
(** [round(x, 0)] of Python 2 for [x >= 0]: halves away from zero. *)
Definition round2 (q : Qc) : Z := Qround.Qfloor (this (q + Q2Qc (1 # 2))%Qc).

(** [x == y] of two elements. *)
Definition eq_elem (v w : val) : bool :=
  match to_num v, to_num w with
  | Some m, Some n => num_eqb m n
  | _, _ => bool_decide (v = w)
  end.
(** [around(abs(x - y), 13) <= 10.0**(-13)] of two finite elements. *)
Definition almost_elem (v w : val) : bool :=
  match to_num v, to_num w with
  | Some m, Some n =>
      match num_abs (num_sub m n) with
      | Fin d => (rint (d * Qc_of_Z (10 ^ 13)) <=? 1)%Z
      | _ => false
      end
  | _, _ => false
  end.
Definition all_of (f : val -> val -> bool) (vs ws : list val) : bool := forallb (fun b => b) (zip_with f vs ws).

Definition any (l : list bool) : bool := existsb (fun b => b) l.
Definition num_test (f : num -> bool) (v : val) : bool := match to_num v with Some n => f n | None => false end.
(** [isnumber]. *)
Definition number_dtype (dt : dtype) : bool := match dt with DFloat | DInt | DBool => true | _ => false end.
(** [assert_array_compare] of numpy.testing: whether it passes.  Simplification:
    arrays have at least one axis. *)
Definition array_compare (comparison : val -> val -> bool) (x y : nda) : bool :=
  if decide (nd_shape x = nd_shape y) then
    let vs := data (nd_arr x) in
    let ws := data (nd_arr y) in
    if number_dtype (nd_dtype x) && number_dtype (nd_dtype y) then
      let xnan := num_test is_nan <$> vs in
      let ynan := num_test is_nan <$> ws in
      let xinf := num_test is_inf <$> vs in
      let yinf := num_test is_inf <$> ws in
      let same (f : num -> bool) := bool_decide ((num_test f <$> vs) = (num_test f <$> ws)) in
      (if any xnan || any ynan then bool_decide (xnan = ynan) else true) &&
      (if any xinf || any yinf then same (fun n => num_eqb n PInf) && same (fun n => num_eqb n NInf) else true) &&
      (let xid := zip_with orb xnan xinf in
       let yid := zip_with orb ynan yinf in
       if forallb (fun b => b) xid then true
       else if any xid then all_of comparison (compress (negb <$> xid) vs) (compress (negb <$> yid) ws)
       else all_of comparison vs ws)
    else all_of comparison vs ws
  else false.
(** The comparison of the data: testing.py:166-180.  Arrays of strings are not
    equal to other arrays ([x == y] is False, [x - y] a TypeError).
    Simplification: an array of objects is compared with such arrays only. *)
Definition data_equal (x y : nda) : res bool :=
  match nd_dtype x, nd_dtype y with
  | DObj, DObj | DStr, DStr => Ok (array_compare eq_elem x y)
  | DObj, _ | _, DObj => Err NotImplementedError
  | DStr, _ | _, DStr => Ok false
  | DFloat, _ | _, DFloat => Ok (array_compare almost_elem x y)
  | _, _ => Ok (array_compare eq_elem x y)
  end.

(** [assert_equal] and [assert_almost_equal] of scalars. *)
Definition scalar_equal (v w : val) : bool :=
  match to_num v, to_num w with
  | Some NaN, Some NaN => true
  | Some m, Some n => num_eqb m n
  | _, _ => bool_decide (v = w)
  end.
Definition scalar_almost (v w : val) : res bool :=
  match to_num v, to_num w with
  | Some (Fin p), Some (Fin q) =>
      match num_abs (Fin (q - p)%Qc) with Fin d => Ok (bool_decide (round2 (d * Qc_of_Z (10 ^ 7)) = 0%Z)) | _ => Ok false end
  | Some m, Some n => Ok ((is_nan m && is_nan n) || num_eqb n m)
  | _, _ => Err TypeError
  end.

(** What is compared: a scalar of Python or of numpy, a larry, something else. *)
Inductive tobj := TScalar (numpy : bool) (v : val) | TLarry (p : nat) | TOther.
Definition np_isscalar (o : tobj) : bool :=
  match o with TScalar _ (VFloat _ | VInt _ | VBool _ | VStr _) => true | _ => false end.
Definition scalar_type (v : val) : dtype :=
  match v with VFloat _ => DFloat | VInt _ => DInt | VBool _ => DBool | VStr _ => DStr | _ => DObj end.
(** The headings of the AssertionError. *)
Inductive heading := HScalars | HType | HLabel | HData | HDtype | HNotCopy | HIsCopy.
Global Instance heading_eq_dec : EqDecision heading.
Proof. solve_decision. Defined.
Definition when (b : bool) (x : heading) : list heading := if b then [x] else [].

(** [assert_larry_equal]: testing.py:108-209; the headings of the
    AssertionError, none if it passes; [Err] for other exceptions. [original]
    is None or a larry. *)
Definition assert_larry_equal (h : heap) (actual desired : tobj) (dtype : bool) (original : option nat) (iscopy : bool) :
    res (list heading) :=
  match actual, desired with
  | TScalar n v, TScalar n' w =>
      if np_isscalar actual && np_isscalar desired then
        ok ← (if scalar_equal v w then Ok true else scalar_almost v w);
        Ok (when (negb ok) HScalars ++ when (dtype && negb (bool_decide (n = n' /\ scalar_type v = scalar_type w))) HType)
      else Err AttributeError
  | TLarry p, TLarry q =>
      y ← of_opt RuntimeError (read_larry h p);
      z ← of_opt RuntimeError (read_larry h q);
      ok ← data_equal (lx y) (lx z);
      refs ← match original with
             | None => Ok []
             | Some r => if iscopy then cs ← of_opt RuntimeError (assert_iscopy h p r); Ok (when (negb (bool_decide (cs = []))) HNotCopy)
                         else cs ← of_opt RuntimeError (assert_isview h p r); Ok (when (negb (bool_decide (cs = []))) HIsCopy)
             end;
      Ok (when (negb (bool_decide (llabel y = llabel z))) HLabel ++ when (negb ok) HData ++
          when (dtype && negb (bool_decide (ldtype y = ldtype z))) HDtype ++ refs)
  | TLarry _, _ | _, TLarry _ => Ok [HType]
  | _, _ => Err AttributeError
  end.
