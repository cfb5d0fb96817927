(** la/farray/normalize.py and the larry methods that use it. *)
From Verif Require Export SpecFarray Numeric.

(** Numpy functions that act lane by lane along an axis, or on the flattened
    array and reshaped back when there is no axis; the result is a float array.
    [f] acts on the numbers of a lane. *)
Definition on_nums (f : list num -> list num) (l : list val) : list val := VFloat <$> f (omap to_num l).
(** Simplification: bool and object arrays are not modelled. *)
Definition check_numeric (x : nda) : res unit :=
  match nd_dtype x with
  | DFloat | DInt => Ok ()
  | DStr => Err TypeError
  | DBool | DObj => Err NotImplementedError
  end.
Definition lanewise (f : list num -> list num) (x : nda) (axis : option nat) : res nda :=
  _ ← check_numeric x;
  match axis with
  | None => Ok (Nda DFloat (Arr (nd_shape x) (on_nums f (data (nd_arr x)))))
  | Some ax => b ← of_opt ValueError (along (on_nums f) (nd_arr x) ax); Ok (Nda DFloat b)
  end.

(** * ranking *)

(** One lane of [bn.nanrankdata]: the mean of the ranks 1, 2, ... that equal
    numbers take; NaN has no rank. *)
Definition nanrank (ns : list num) (n : num) : num :=
  if is_nan n then NaN
  else num_add (num_of_nat (length (filter (fun m => num_ltb m n = true) ns)))
         (num_div (num_of_nat (length (filter (fun m => num_eqb m n = true) ns) + 1)) (num_of_Z 2)).
Definition nanrankdata (ns : list num) : list num := nanrank ns <$> ns.
Inductive rank_norm := NormOne | NormN | NormGaussian | NormBad.
(** One lane of [ranking(x, axis, norm)]: la/farray/normalize.py:126-199.
    [ndtri] is SciPy's function. *)
Definition ranking_lane (ndtri : num -> num) (norm : rank_norm) (ns : list num) : list num :=
  let len := Z.of_nat (length ns) in
  let countnotnan := (len - Z.of_nat (length (filter (fun n => is_nan n = true) ns)))%Z in
  let idx := (fun r => num_sub r (num_of_Z 1)) <$> nanrankdata ns in
  let '(idx, middle) :=
    match norm with
    | NormOne =>
        ((fun r => num_sub (num_mul (num_div r (num_of_Z (countnotnan - 1))) (num_of_Z 2)) (num_of_Z 1)) <$> idx, num_of_Z 0)
    | NormN =>
        ((fun r => num_mul r (num_div (num_of_Z (len - 1)) (num_of_Z (countnotnan - 1)))) <$> idx,
         num_sub (num_div (num_of_Z (len + 1)) (num_of_Z 2)) (num_of_Z 1))
    | NormGaussian =>
        ((fun r => ndtri (num_div (num_add (num_mul r (num_div (num_of_Z (len - 1)) (num_of_Z (countnotnan - 1)))) (num_of_Z 1))
                            (num_of_Z (len + 1)))) <$> idx, num_of_Z 0)
    | NormBad => (idx, num_of_Z 0)
    end in
  zip_with (fun (r n : num) => if bool_decide (countnotnan = 1%Z) && negb (is_nan n) then middle else r) idx ns.
(** [ranking(x, axis, norm)] of an array. *)
Definition np_ranking (ndtri : num -> num) (x : nda) (axis : option Z) (norm : rank_norm) : res nda :=
  ax ← match axis return res (option nat) with
       | None => Ok None
       | Some a =>
           ax ← (if decide (a < 0)%Z then of_opt IndexError (py_index (nd_ndim x) a)
                 else of_opt ValueError (py_index (nd_ndim x) a));
           Ok (Some ax)
       end;
  _ ← check_numeric x;
  match norm with
  | NormBad => Err ValueError
  | _ => lanewise (ranking_lane ndtri norm) x ax
  end.
(** [y.ranking(axis, norm)]: la/deflarry.py:3157-3195. *)
Definition larry_ranking (ndtri : num -> num) (y : larry) (axis : option Z) (norm : rank_norm) : res larry :=
  x ← np_ranking ndtri (lx y) axis norm;
  Ok (Larry x (llabel y)).

(** * lastrank *)

(** One lane of [lastrank(x, axis, decay=0)]: la/farray/normalize.py:91-94 and
    112-124. *)
Definition lastrank_lane (ns : list num) : num :=
  match last ns with
  | None => NaN
  | Some n =>
      let g := num_of_nat (length (filter (fun m => num_ltb m n = true) ns)) in
      let e := num_of_nat (length (filter (fun m => num_eqb n m = true) ns)) in
      let c := num_of_nat (length (filter (fun m => is_finite m = true) ns)) in
      let r := num_div (num_sub (num_add (num_add g g) e) (num_of_Z 1)) (num_of_Z 2) in
      let r := num_div r (num_sub c (num_of_Z 1)) in
      let r := num_mul (num_of_Z 2) (num_sub r (num_div (num_of_Z 1) (num_of_Z 2))) in
      if is_finite n then r else NaN
  end.
Definition last_val (l : list val) : val := VFloat (lastrank_lane (omap to_num l)).
(** [y.lastrank(axis)] with decay 0: la/deflarry.py:1586-1657 and, for empty
    larrys, 1461-1492.  Simplification: the axis is a number. *)
Definition larry_lastrank (y : larry) (axis : Z) : res out :=
  ax ← of_opt IndexError (py_index (lndim y) axis);
  if decide (lsize y = 0) then
    match remove_at ax (lshape y) with
    | [] => Ok (OVal (VFloat NaN))
    | sh => v ← store (ldtype y) (VFloat NaN);
            Ok (OLar (Larry (Nda (ldtype y) (full sh v)) (remove_at ax (llabel y))))
    end
  else
    _ ← check_numeric (lx y);
    b ← of_opt ValueError (reduce last_val (larr y) ax);
    as_out (Nda DFloat b) (remove_at ax (llabel y)).

(** * quantile *)

(** [x[idx]] for an index list. *)
Definition pick {A} (l : list A) (idx : list nat) : list A := omap (l !!.) idx.
(** [mdx[mask] = j] for all bins [j] in turn: the last bin whose interval
    holds the rank; NaN if there is none. *)
Definition bin_of (kdx : list num) (q : nat) (r : nat) : num :=
  fold_left (fun m j =>
    match kdx !! (j - 1), kdx !! j with
    | Some a, Some b => if num_ltb a (num_of_nat r) && num_leb (num_of_nat r) b then num_of_nat j else m
    | _, _ => m
    end) (seq 1 q) NaN.
(** The limits of the bins: la/farray/normalize.py:233-236. *)
Definition bin_limits (nx q : nat) : list num :=
  let step := num_div (num_of_Z (Z.of_nat nx - 1)) (num_of_nat q) in
  let kdx := num_of_Z (-1) :: scan num_add (replicate q step) in
  <[length kdx - 1 := num_of_nat nx]> kdx.
(** [_quantileraw1d(xi, q)]: la/farray/normalize.py:225-240.  [argsort] is
    numpy's argsort. *)
Definition quantile_raw (argsort : list val -> list nat) (q : nat) (ns : list num) : list num :=
  let idx := filter (fun k => is_finite <$> (ns !! k) = Some true) (seq 0 (length ns)) in
  let xi := pick ns idx in
  let y := replicate (length ns) NaN in
  match idx with
  | [] => y
  | _ =>
      let jdx := argsort ((fun k => VInt (Z.of_nat k)) <$> argsort (VFloat <$> xi)) in
      let mdx := bin_of (bin_limits (length idx) q) q <$> jdx in
      fold_left (fun y (p : nat * num) => <[p.1 := p.2]> y) (zip idx mdx) y
  end.
Definition quantile_lane (argsort : list val -> list nat) (q : nat) (ns : list num) : list num :=
  (fun b => num_mul (num_of_Z 2)
              (num_sub (num_div (num_sub b (num_of_Z 1)) (num_sub (num_of_nat q) (num_of_Z 1)))
                       (num_div (num_of_Z 1) (num_of_Z 2)))) <$> quantile_raw argsort q ns.
(** [quantile(x, q, axis)]: la/farray/normalize.py:242-293.  numpy's
    apply_along_axis fails on an array without elements. *)
Definition np_quantile (argsort : list val -> list nat) (x : nda) (q : Z) (axis : option Z) : res nda :=
  if decide (q < 1)%Z then Err ValueError
  else if decide (q = 1)%Z then lanewise (fun ns => (fun n => if is_nan n then NaN else num_of_Z 0) <$> ns) x None
  else
    match axis with
    | None =>
        if decide (Z.of_nat (nd_size x) < q)%Z then Err ValueError
        else lanewise (quantile_lane argsort (Z.to_nat q)) x None
    | Some a =>
        ax ← of_opt IndexError (py_index (nd_ndim x) a);
        n ← of_opt IndexError (nd_shape x !! ax);
        if decide (Z.of_nat n < q)%Z then Err ValueError
        else if decide (nd_size x = 0) then Err IndexError
        else lanewise (quantile_lane argsort (Z.to_nat q)) x (Some ax)
    end.
(** [y.quantile(q, axis)]: la/deflarry.py:3197-3235. *)
Definition larry_quantile (argsort : list val -> list nat) (y : larry) (q : Z) (axis : option Z) : res larry :=
  x ← np_quantile argsort (lx y) q axis;
  Ok (Larry x (llabel y)).

(** * demean, demedian, zscore *)

(** One lane of [arr - bn.nanmean(arr, axis)] and the like:
    la/farray/normalize.py:295-355. *)
Definition centre_lane (op : red_op) (ns : list num) : list num :=
  let marr := float_red op (filter (fun n => n <> NaN) ns) in
  (fun n => num_sub n marr) <$> ns.
(** One lane of [zscore]: la/farray/normalize.py:357-388. *)
Definition zscore_lane (sqrt : num -> num) (ns : list num) : list num :=
  let arr := centre_lane RMean ns in
  let norm := match filter (fun n => n <> NaN) arr with [] => NaN | l => sqrt (num_var 0 l) end in
  (fun n => num_div n norm) <$> arr.
Definition on_axis (f : list num -> list num) (x : nda) (axis : option Z) : res nda :=
  match axis with
  | None => lanewise f x None
  | Some a => ax ← of_opt ValueError (norm_axis (nd_ndim x) a); lanewise f x (Some ax)
  end.
(** [y.demean(axis)], [y.demedian(axis)], [y.zscore(axis)]:
    la/deflarry.py:3068-3155. *)
Definition larry_demean (y : larry) (axis : option Z) : res larry :=
  x ← on_axis (centre_lane RMean) (lx y) axis; Ok (Larry x (llabel y)).
Definition larry_demedian (y : larry) (axis : option Z) : res larry :=
  x ← on_axis (centre_lane RMedian) (lx y) axis; Ok (Larry x (llabel y)).
Definition larry_zscore (sqrt : num -> num) (y : larry) (axis : option Z) : res larry :=
  x ← on_axis (zscore_lane sqrt) (lx y) axis; Ok (Larry x (llabel y)).
