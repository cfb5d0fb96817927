(** Kinds of methods: those that work element by element, those that work lane
    by lane along one axis, and those that reduce the lanes along one axis. *)
From Verif Require Export Session SpecCommute.

(** [y == v] and the like where the result is a larry. *)
Definition compare_to (op : cmp_op) (y : larry) (v : val) : res larry :=
  o ← larry_compare op y (OpScalar v);
  match o with OLar z => Ok z | OVal _ => Err TypeError end.

Inductive cell_method : (larry -> res larry) -> Prop :=
  | cm_copy : cell_method (fun y => Ok (larry_copy y))
  | cm_pos : cell_method (fun y => Ok (larry_pos y))
  | cm_neg : cell_method larry_neg
  | cm_abs : cell_method larry_abs
  | cm_sign : cell_method larry_sign
  | cm_isnan : cell_method larry_isnan
  | cm_isfinite : cell_method larry_isfinite
  | cm_isinf : cell_method larry_isinf
  | cm_invert : cell_method larry_invert
  | cm_clip lo hi : cell_method (fun y => larry_clip y lo hi)
  | cm_nan_replace v : cell_method (fun y => nan_replace y v)
  | cm_ismissing : cell_method (fun y => Ok (larry_ismissing y))
  | cm_arith op v : cell_method (fun y => larry_arith op y (OpScalar v))
  | cm_rarith op v : cell_method (fun y => larry_rarith op y (OpScalar v))
  | cm_logic op v : cell_method (fun y => larry_logic op y (OpScalar v))
  | cm_compare op v : cell_method (fun y => compare_to op y v)
  | cm_ufunc f : cell_method (larry_ufunc f)
  | cm_power pow q : cell_method (fun y => larry_power pow y q)
  | cm_keep_x op v : cell_method (fun y => keep_x y op v false)
  | cm_astype dt : cell_method (fun y => larry_astype y dt).

Inductive lane_method : (larry -> Z -> res larry) -> Prop :=
  | lm_cum op : lane_method (fun y axis => larry_cum op y (Some axis))
  | lm_push window : lane_method (fun y axis => larry_push y window axis)
  | lm_ranking ndtri norm : lane_method (fun y axis => larry_ranking ndtri y (Some axis) norm)
  | lm_quantile argsort q : lane_method (fun y axis => larry_quantile argsort y q (Some axis))
  | lm_demean : lane_method (fun y axis => larry_demean y (Some axis))
  | lm_demedian : lane_method (fun y axis => larry_demedian y (Some axis))
  | lm_zscore sqrt : lane_method (fun y axis => larry_zscore sqrt y (Some axis))
  | lm_move op window : lane_method (fun y axis => larry_move op y window (Some axis))
  | lm_movingsum_forward window skip norm : lane_method (fun y axis => larry_movingsum_forward y window skip axis norm)
  | lm_group_ranking g : lane_method (fun y axis => larry_group_ranking y (Some g) axis)
  | lm_group_mean g : lane_method (fun y axis => larry_group_mean y (Some g) axis)
  | lm_group_median g : lane_method (fun y axis => larry_group_median y (Some g) axis)
  | lm_lag n : lane_method (fun y axis => lag y n (Some axis))
  | lm_take ids : lane_method (fun y axis => larry_take y ids axis)
  | lm_flipaxis : lane_method (fun y axis => flipaxis y (Some axis))
  | lm_sortaxis reverse : lane_method (fun y axis => sortaxis y (Some axis) reverse)
  | lm_morph label : lane_method (fun y axis => morph y label axis).

Inductive reduce_method : (larry -> Z -> res out) -> Prop :=
  | rm_reduce op : reduce_method (fun y axis => larry_reduce op y (Some axis))
  | rm_std sqrt ddof : reduce_method (fun y axis => larry_std sqrt y (Some axis) ddof)
  | rm_prod : reduce_method (fun y axis => larry_prod y (Some axis))
  | rm_geometric_mean log exp check : reduce_method (fun y axis => larry_geometric_mean log exp y (Some axis) check)
  | rm_lastrank : reduce_method larry_lastrank
  | rm_lastrank_decay exp decay : reduce_method (fun y axis => larry_lastrank_decay exp y axis decay).

(** Reductions that treat all elements of a lane alike, along an axis or over
    the whole larry. *)
Inductive summary_method : (larry -> option Z -> res out) -> Prop :=
  | sm_reduce op : summary_method (larry_reduce op)
  | sm_std sqrt ddof : summary_method (fun y axis => larry_std sqrt y axis ddof)
  | sm_prod : summary_method larry_prod
  | sm_geometric_mean log exp check : summary_method (fun y axis => larry_geometric_mean log exp y axis check).
(** Normalisations that do so. *)
Inductive normal_method : (larry -> option Z -> res larry) -> Prop :=
  | nm_demean : normal_method larry_demean
  | nm_demedian : normal_method larry_demedian
  | nm_zscore sqrt : normal_method (larry_zscore sqrt)
  | nm_ranking ndtri norm : normal_method (fun y axis => larry_ranking ndtri y axis norm).
