(** Sequences of method calls on named larrys. *)
From Verif Require Export Align Ops Numeric Create Resample Convert Index Farray Move Group Misc Csv Moving Astype.

(** One call.  Larrys are given by their number in the session; a result is a
    new larry of the session unless the method works in place ([CSet], [CFill],
    [CSetitem], [CSetmask], [CLixSet], [CShuffle], [CShufflelabel]).  Larrys are values here:
    that some results share memory with their arguments is the subject of
    Heap.v. *)
Inductive call :=
  (* la/deflarry.py *)
  | CMake (x : nda) (label : option (list (list lab)))
  | CCopy (i : nat)
  | CSet (i : nat) (label : list lab) (v : val)
  | CFill (i : nat) (v : val)
  | CMaplabel (i : nat) (func : lab -> lab) (axis : option Z)
  | CTake (i : nat) (indices : list Z) (axis : Z)
  | CKeepLabel (i : nat) (op : label_op) (axis : option Z)
  | CPull (i : nat) (name : lab) (axis : option Z)
  | CLag (i : nat) (nlag : Z) (axis : option Z)
  | CFlipaxis (i : nat) (axis : option Z)
  | CT (i : nat)
  | CSwapaxes (i : nat) (axis1 axis2 : Z)
  | CSqueeze (i : nat)
  | CInsertaxis (i : nat) (axis : option Z) (label : lab)
  | CMorph (i : nat) (label : list lab) (axis : Z)
  | CMorphLike (i j : nat)
  | CSortaxis (i : nat) (axis : option Z) (reverse : bool)
  | CMerge (i j : nat) (update : bool)
  | CNanReplace (i : nat) (v : val)
  | CIsmissing (i : nat)
  | CArith (op : arith_op) (i j : nat)
  | CArithArr (op : arith_op) (i : nat) (a : nda)
  | CArithScalar (op : arith_op) (i : nat) (v : val)
  | CRarithArr (op : arith_op) (i : nat) (a : nda)
  | CRarithScalar (op : arith_op) (i : nat) (v : val)
  | CLogic (op : logic_op) (i j : nat)
  | CLogicArr (op : logic_op) (i : nat) (a : nda)
  | CLogicScalar (op : logic_op) (i : nat) (v : val)
  | CCompare (op : cmp_op) (i j : nat)
  | CCompareArr (op : cmp_op) (i : nat) (a : nda)
  | CCompareScalar (op : cmp_op) (i : nat) (v : val)
  | CNeg (i : nat) | CAbs (i : nat) | CSign (i : nat)
  | CIsnan (i : nat) | CIsfinite (i : nat) | CIsinf (i : nat) | CInvert (i : nat)
  | CCum (op : cum_op) (i : nat) (axis : option Z)
  | CClip (i : nat) (lo hi : val)
  | CReduce (op : red_op) (i : nat) (axis : option Z)
  | CStd (sqrt : num -> num) (i : nat) (axis : option Z) (ddof : Z)
  | CProd (i : nat) (axis : option Z)
  | CLastrank (i : nat) (axis : Z)
  | CVacuum (i : nat) (axis : axes_arg)
  | CCutMissing (i : nat) (fraction : num) (axis : option Z)
  | CPush (i : nat) (window : Z) (axis : Z)
  | CRanking (ndtri : num -> num) (i : nat) (axis : option Z) (norm : rank_norm)
  | CQuantile (argsort : list val -> list nat) (i : nat) (q : Z) (axis : option Z)
  | CDemean (i : nat) (axis : option Z)
  | CDemedian (i : nat) (axis : option Z)
  | CZscore (sqrt : num -> num) (i : nat) (axis : option Z)
  | CMovingsumForward (i : nat) (window : Z) (skip : nat) (axis : Z) (norm : bool)
  | CMoveFunc (layout : arr val -> view val) (func : lane_func) (i : nat) (window : Z) (axis : option Z) (method : move_method)
  | CMoveMedian (layout : arr val -> view val) (i : nat) (window : Z) (axis : option Z) (method : move_method)
  | CMoveRanking (layout : arr val -> view val) (i : nat) (window : Z) (axis : option Z) (method : move_method)
  | CGroupRanking (i j : nat) (axis : Z)
  | CGroupMean (i j : nat) (axis : Z)
  | CGroupMedian (i j : nat) (axis : Z)
  | CGetitem (i : nat) (ix : subscript)
  | CSetitem (i : nat) (ix : subscript) (v : setval)
  | CSetmask (i j : nat) (v : val)
  | CLixGet (i : nat) (ix : lix_index)
  | CLixSet (i : nat) (ix : lix_index) (v : setval)
  | CShuffle (d : nat -> nat -> nat) (i : nat) (axis : option Z)
  | CShufflelabel (d : nat -> nat -> nat) (i : nat) (axis : option Z)
  | CFlatten (i : nat) (order : string)
  | CUnflatten (i : nat)
  | CFromlist (d : option (list val * list (list lab)))
  | CFromtuples (d : list (list lab * val))
  | CFromdict (d : pydict (list lab) val)
  (* la/flarry.py and la/util/resample.py *)
  | CAlign (i j : nat) (join : join_arg) (cast : bool)
  | CAlignAxis (is : list nat) (axis : list Z) (join : join_type)
  | CBinaryop (op : arith_op) (i j : nat) (join : join_arg) (cast : bool) (missone misstwo : option val)
  | CStack (mode : stack_mode) (names : list string) (is : list nat)
  | CPanel (i : nat)
  | CCov (i : nat)
  | CSortby (argsort : list val -> list nat) (i : nat) (element : lab) (axis : Z) (rev : bool)
  | CLrange (shape : option (list nat)) (label : option (list (list lab))) (start step : val) (dt : option dtype)
  | CEmpty (f : list nat -> nda) (shape : option (list nat)) (label : option (list (list lab)))
  | CFillNew (v : val) (f : list nat -> nda) (shape : option (list nat)) (label : option (list (list lab)))
  | CRand (f : list nat -> nda) (args : list nat) (label : option (list (list lab)))
  | CSplit (i : nat) (idx_train idx_test : list nat) (axis : Z)
  (* more of la/deflarry.py *)
  | CPos (i : nat)
  | CUfunc (f : num -> num) (i : nat)
  | CPower (pow : num -> num -> num) (i : nat) (q : val)
  | CGeometricMean (log exp : num -> num) (i : nat) (axis : option Z) (check : bool)
  | CLastrankDecay (exp : num -> num) (i : nat) (axis : Z) (decay : num)
  | CKeepX (i : nat) (op : option cmp_op) (value : val) (vac : bool)
  | CMove (op : move_stat) (i : nat) (window : Z) (axis : option Z)
  | CAstype (i : nat) (dt : dtype)
  | CMakeDtype (x : nda) (label : option (list (list lab))) (dt : option dtype)
  | CFromcsv (py3 : bool) (float : string -> option num) (t : text) (delimiter : string) (skiprows : nat).

(** The larrys among the results of a call. *)
Definition out_larrys (o : out) : list larry := match o with OLar z => [z] | OVal _ => [] end.
Definition gres_larrys (g : gres) : list larry := match g with GLar z => [z] | _ => [] end.
Definition nth_larry (env : list larry) (i : nat) : res larry := of_opt IndexError (env !! i).

Definition with1 {A} (env : list larry) (i : nat) (f : larry -> res A) : res A := y ← nth_larry env i; f y.
Definition with2 {A} (env : list larry) (i j : nat) (f : larry -> larry -> res A) : res A :=
  y ← nth_larry env i; z ← nth_larry env j; f y z.

(** The results of a call: the larry it changes in place, if any, and the new
    larrys.  A result of [binaryop] one of whose labels is [None] (from a
    skipped axis) is not a larry of the model: NotImplementedError. *)
Definition new (r : res larry) : res (option (nat * larry) * list larry) := z ← r; Ok (None, [z]).
Definition news (r : res (list larry)) : res (option (nat * larry) * list larry) := zs ← r; Ok (None, zs).
Definition inplace (i : nat) (r : res larry) : res (option (nat * larry) * list larry) := z ← r; Ok (Some (i, z), []).
Definition results (env : list larry) (c : call) : res (option (nat * larry) * list larry) :=
  match c with
  | CMake x label => new (make x label)
  | CCopy i => new (with1 env i (fun y => Ok (larry_copy y)))
  | CSet i label v => inplace i (with1 env i (fun y => larry_set y label v))
  | CFill i v => inplace i (with1 env i (fun y => larry_fill y v))
  | CMaplabel i func axis => new (with1 env i (fun y => maplabel y func axis))
  | CTake i indices axis => new (with1 env i (fun y => larry_take y indices axis))
  | CKeepLabel i op axis => new (with1 env i (fun y => keep_label y op axis))
  | CPull i name axis => news (with1 env i (fun y => o ← pull y name axis; Ok (out_larrys o)))
  | CLag i nlag axis => new (with1 env i (fun y => lag y nlag axis))
  | CFlipaxis i axis => new (with1 env i (fun y => flipaxis y axis))
  | CT i => new (with1 env i larry_T)
  | CSwapaxes i a1 a2 => new (with1 env i (fun y => swapaxes y a1 a2))
  | CSqueeze i => new (with1 env i (fun y => Ok (squeeze y)))
  | CInsertaxis i axis label => new (with1 env i (fun y => insertaxis y axis label))
  | CMorph i label axis => new (with1 env i (fun y => morph y label axis))
  | CMorphLike i j => new (with2 env i j morph_like)
  | CSortaxis i axis reverse => new (with1 env i (fun y => sortaxis y axis reverse))
  | CMerge i j update => new (with2 env i j (fun y z => larry_merge y z update))
  | CNanReplace i v => new (with1 env i (fun y => nan_replace y v))
  | CIsmissing i => new (with1 env i (fun y => Ok (larry_ismissing y)))
  | CArith op i j => new (with2 env i j (fun y z => larry_arith op y (OpLarry z)))
  | CArithArr op i a => new (with1 env i (fun y => larry_arith op y (OpArr a)))
  | CArithScalar op i v => new (with1 env i (fun y => larry_arith op y (OpScalar v)))
  | CRarithArr op i a => new (with1 env i (fun y => larry_rarith op y (OpArr a)))
  | CRarithScalar op i v => new (with1 env i (fun y => larry_rarith op y (OpScalar v)))
  | CLogic op i j => new (with2 env i j (fun y z => larry_logic op y (OpLarry z)))
  | CLogicArr op i a => new (with1 env i (fun y => larry_logic op y (OpArr a)))
  | CLogicScalar op i v => new (with1 env i (fun y => larry_logic op y (OpScalar v)))
  | CCompare op i j => news (with2 env i j (fun y z => o ← larry_compare op y (OpLarry z); Ok (out_larrys o)))
  | CCompareArr op i a => news (with1 env i (fun y => o ← larry_compare op y (OpArr a); Ok (out_larrys o)))
  | CCompareScalar op i v => news (with1 env i (fun y => o ← larry_compare op y (OpScalar v); Ok (out_larrys o)))
  | CNeg i => new (with1 env i larry_neg)
  | CAbs i => new (with1 env i larry_abs)
  | CSign i => new (with1 env i larry_sign)
  | CIsnan i => new (with1 env i larry_isnan)
  | CIsfinite i => new (with1 env i larry_isfinite)
  | CIsinf i => new (with1 env i larry_isinf)
  | CInvert i => new (with1 env i larry_invert)
  | CCum op i axis => new (with1 env i (fun y => larry_cum op y axis))
  | CClip i lo hi => new (with1 env i (fun y => larry_clip y lo hi))
  | CReduce op i axis => news (with1 env i (fun y => o ← larry_reduce op y axis; Ok (out_larrys o)))
  | CStd sqrt i axis ddof => news (with1 env i (fun y => o ← larry_std sqrt y axis ddof; Ok (out_larrys o)))
  | CProd i axis => news (with1 env i (fun y => o ← larry_prod y axis; Ok (out_larrys o)))
  | CLastrank i axis => news (with1 env i (fun y => o ← larry_lastrank y axis; Ok (out_larrys o)))
  | CVacuum i axis => new (with1 env i (fun y => vacuum y axis))
  | CCutMissing i fraction axis => new (with1 env i (fun y => cut_missing y fraction axis))
  | CPush i window axis => new (with1 env i (fun y => larry_push y window axis))
  | CRanking ndtri i axis norm => new (with1 env i (fun y => larry_ranking ndtri y axis norm))
  | CQuantile argsort i q axis => new (with1 env i (fun y => larry_quantile argsort y q axis))
  | CDemean i axis => new (with1 env i (fun y => larry_demean y axis))
  | CDemedian i axis => new (with1 env i (fun y => larry_demedian y axis))
  | CZscore sqrt i axis => new (with1 env i (fun y => larry_zscore sqrt y axis))
  | CMovingsumForward i window skip axis norm => new (with1 env i (fun y => larry_movingsum_forward y window skip axis norm))
  | CMoveFunc layout func i window axis method => new (with1 env i (fun y => larry_move_func layout func y window axis method []))
  | CMoveMedian layout i window axis method => new (with1 env i (fun y => larry_move_median layout y window axis method))
  | CMoveRanking layout i window axis method => new (with1 env i (fun y => larry_move_ranking layout y window axis method))
  | CGroupRanking i j axis => new (with2 env i j (fun y g => larry_group_ranking y (Some g) axis))
  | CGroupMean i j axis => new (with2 env i j (fun y g => larry_group_mean y (Some g) axis))
  | CGroupMedian i j axis => new (with2 env i j (fun y g => larry_group_median y (Some g) axis))
  | CGetitem i ix => news (with1 env i (fun y => g ← larry_getitem y ix; Ok (gres_larrys g)))
  | CSetitem i ix v => inplace i (with1 env i (fun y => larry_setitem y ix v))
  | CSetmask i j v => inplace i (with2 env i j (fun y m => larry_setmask y m v))
  | CLixGet i ix => news (with1 env i (fun y => g ← lix_get y ix; Ok (gres_larrys g)))
  | CLixSet i ix v => inplace i (with1 env i (fun y => lix_set y ix v))
  | CShuffle d i axis => inplace i (with1 env i (fun y => larry_shuffle d y axis))
  | CShufflelabel d i axis => inplace i (with1 env i (fun y => larry_shufflelabel d y axis))
  | CFlatten i order => new (with1 env i (fun y => larry_flatten y order))
  | CUnflatten i => new (with1 env i larry_unflatten)
  | CFromlist d => new (larry_fromlist d)
  | CFromtuples d => new (larry_fromtuples d)
  | CFromdict d => new (larry_fromdict d)
  | CAlign i j join cast => news (with2 env i j (fun y z => p ← align y z join cast; Ok [p.1; p.2]))
  | CAlignAxis is axis join => news (ys ← mapR (nth_larry env) is; align_axis ys axis join)
  | CBinaryop op i j join cast m1 m2 =>
      new (with2 env i j (fun y z => p ← binaryop (np_arith op) y z join cast m1 m2;
                               label ← of_opt NotImplementedError (mapM (fun o => o) p.2);
                               Ok (Larry p.1 label)))
  | CStack mode names is => new (ys ← mapR (nth_larry env) is; stack mode (zip names ys))
  | CPanel i => new (with1 env i panel)
  | CCov i => new (with1 env i larry_cov)
  | CSortby argsort i element axis rev => new (with1 env i (fun y => sortby argsort y element axis rev))
  | CLrange shape label start step dt => new (lrange shape label start step dt)
  | CEmpty f shape label => new (larry_empty f shape label)
  | CFillNew v f shape label => new (larry_fill_new v f shape label)
  | CRand f args label => news (o ← larry_rand f args label; Ok (out_larrys o))
  | CSplit i idx_train idx_test axis => news (with1 env i (fun y => p ← split_data y idx_train idx_test axis; Ok [p.1; p.2]))
  | CPos i => new (with1 env i (fun y => Ok (larry_pos y)))
  | CUfunc f i => new (with1 env i (fun y => larry_ufunc f y))
  | CPower pow i q => new (with1 env i (fun y => larry_power pow y q))
  | CGeometricMean log exp i axis check => news (with1 env i (fun y => o ← larry_geometric_mean log exp y axis check; Ok (out_larrys o)))
  | CLastrankDecay exp i axis decay => news (with1 env i (fun y => o ← larry_lastrank_decay exp y axis decay; Ok (out_larrys o)))
  | CKeepX i op value vac => new (with1 env i (fun y => keep_x y op value vac))
  | CMove op i window axis => new (with1 env i (fun y => larry_move op y window axis))
  | CAstype i dt => new (with1 env i (fun y => larry_astype y dt))
  | CMakeDtype x label dt => new (make_dtype x label dt)
  | CFromcsv py3 float t delimiter skiprows => new (larry_fromcsv py3 float t delimiter skiprows)
  end.

(** The larrys of the session after a call, and after a program; a program
    stops at the first exception. *)
Definition changed (env : list larry) (o : option (nat * larry)) : list larry :=
  match o with Some (i, z) => <[i := z]> env | None => env end.
Definition exec (env : list larry) (c : call) : res (list larry) :=
  r ← results env c;
  Ok (changed env (fst r) ++ snd r).
Definition run (env : list larry) (p : list call) : res (list larry) := foldM exec env p.
