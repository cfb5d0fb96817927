{
 "claims": [
  {
   "property": "C01",
   "status": "proved",
   "theorems": [
    "C01_listmap_maps",
    "C01_listmap_unmappable",
    "C01_listmap_ignore"
   ],
   "note": "lists of labels; indices are positions in list1 (the last one for repeated elements)"
  },
  {
   "property": "C02",
   "status": "proved",
   "theorems": [
    "C02_listmap_fill"
   ],
   "note": "fill is an integer, as in the Cython signature"
  },
  {
   "property": "C03",
   "status": "proved",
   "theorems": [
    "C03_listmap_same",
    "C03_listmap_fill_same"
   ],
   "note": "for list arguments and integer fill; C int overflow is not modelled; non-list iterables are rejected by the Cython signature only"
  },
  {
   "property": "C04",
   "status": "proved",
   "theorems": [
    "C04_flattenlabel_order",
    "C04_flattenlabel_grid",
    "C04_flattenlabel_bad_order"
   ],
   "note": ""
  },
  {
   "property": "C05",
   "status": "proved",
   "theorems": [
    "C05_list2index",
    "C05_list2index_total",
    "C05_label_order_total"
   ],
   "note": "TypeError for labels that Python 3 cannot compare"
  },
  {
   "property": "C06",
   "status": "proved",
   "theorems": [
    "C06_make_iff",
    "C06_make_error",
    "C06_make_valid",
    "C06_make_default_labels",
    "C06_make_default_error",
    "C06_make_default_valid"
   ],
   "note": "x is an ndarray and labels are lists of label elements; conversion of x and the list type check are outside the model"
  },
  {
   "property": "C07",
   "status": "partial",
   "theorems": [
    "C07_integrity_partial",
    "C07_call_partial",
    "C07_maplabel_refuted",
    "C07_squeeze_refuted",
    "C07_array_refuted",
    "C07_compare_refuted"
   ],
   "note": "programs over 94 modelled methods. Proved for programs whose calls satisfy `fine`; false without: maplabel with a non-injective function, squeeze of a one-element larry, arrays that do not fit the larry, comparing strings with bools (refuted with witnesses). Also left out: binaryop with a skipped axis, whose labels are None (C21_skip_refuted)"
  },
  {
   "property": "C08",
   "status": "proved",
   "theorems": [
    "C08_maplabel_all",
    "C08_maplabel_axis",
    "C08_maplabel_succeeds"
   ],
   "note": ""
  },
  {
   "property": "C09",
   "status": "proved",
   "theorems": [
    "C09_get",
    "C09_set",
    "C09_set_total",
    "C09_store_own_dtype",
    "C09_errors",
    "C09_fill"
   ],
   "note": "store is the numpy scalar conversion; a value already of the array's dtype is stored unchanged (C09_store_own_dtype)"
  },
  {
   "property": "C10",
   "status": "partial",
   "theorems": [
    "C10_getitem_partial",
    "C10_getitem_succeeds",
    "C10_separated_refuted",
    "C10_separated",
    "C10_separated_cases",
    "C10_short_tuple_refuted",
    "C10_short_tuple",
    "C10_short_tuple_succeeds"
   ],
   "note": "Holds for every index in which integers and lists are not separated by a slice (or no slice precedes a list) and for integer tuples naming every axis. Refuted otherwise: y[int, slice, list] in numpy's advanced indexing puts the list axis first while the labels stay in order, so with equal sizes the result is transposed against its labels; y[(0,)] on a 2d larry returns an array without labels. At most one list is allowed where success is claimed. The separated indexes are characterised exactly: C10_separated says which element stands in each place, C10_separated_cases when an error is raised instead, C10_short_tuple what a tuple of too few integers returns."
  },
  {
   "property": "C11",
   "status": "proved",
   "theorems": [
    "C11_take",
    "C11_take_total",
    "C11_take_error"
   ],
   "note": ""
  },
  {
   "property": "C12",
   "status": "partial",
   "theorems": [
    "C12_lix_get",
    "C12_lix_get_partial",
    "C12_lix_get_only",
    "C12_lix_get_nothing",
    "C12_lix_get_empty_refuted",
    "C12_lix_set",
    "C12_lix_set_succeeds",
    "C12_lix_set_larry",
    "C12_lix_set_larry_succeeds",
    "C12_lix_set_empty"
   ],
   "note": "The block read or written is proved to be the named labels for every index form. Reading fails where a tuple selects no label of some axis (refuted: np.squeeze keeps the empty axis but its labels are dropped) or names a label twice. Conversely a tuple that can be read names each axis' labels without repetition and selects some label of every axis (C12_lix_get_only, C12_lix_get_nothing)."
  },
  {
   "property": "C13",
   "status": "partial",
   "theorems": [
    "C13_labelindex_exact",
    "C13_labelindex_error",
    "C13_labelindex_present",
    "C13_labelindex_inexact_partial",
    "C13_labelindex_inexact_none",
    "C13_labelindex_inexact_general",
    "C13_labelindex_inexact_refuted"
   ],
   "note": "exact lookup is fully proved; the documented meaning of exact=False holds for ascending labels and is refuted for unsorted labels, where the last label <= name is returned (C13_labelindex_inexact_refuted, _general)"
  },
  {
   "property": "C14",
   "status": "partial",
   "theorems": [
    "C14_keep_label",
    "C14_keep_label_total",
    "C14_keep_label_undefined",
    "C14_keep_label_nothing_refuted"
   ],
   "note": "proved whenever some label matches; refuted otherwise: the method returns larry([]) and loses all labels"
  },
  {
   "property": "C15",
   "status": "partial",
   "theorems": [
    "C15_pull",
    "C15_pull_1d",
    "C15_pull_total",
    "C15_pull_unknown",
    "C15_pull_scalar",
    "C15_pull_scalar_refuted"
   ],
   "note": "proved unless the remaining axis has one label; then the code returns a scalar although y is not 1d (C15_pull_scalar: always; witness C15_pull_scalar_refuted)"
  },
  {
   "property": "C16",
   "status": "proved",
   "theorems": [
    "C16_morph",
    "C16_morph_succeeds",
    "C16_morph_duplicate",
    "C16_morph_bad_axis"
   ],
   "note": ""
  },
  {
   "property": "C17",
   "status": "proved",
   "theorems": [
    "C17_morph_like",
    "C17_morph_like_ndim"
   ],
   "note": ""
  },
  {
   "property": "C18",
   "status": "partial",
   "theorems": [
    "C18_merge",
    "C18_merge_any",
    "C18_merge_succeeds",
    "C18_merge_conflict",
    "C18_merge_ndim",
    "C18_merge_infinity_refuted",
    "C18_merge_int_refuted"
   ],
   "note": "proved for all values and dtypes, with the exact condition for success and the exact dtype of the result; the documented union is refuted for infinities (merge takes them for missing and drops them) and for int larrys, the second having a proper subset of the labels (TypeError)"
  },
  {
   "property": "C19",
   "status": "partial",
   "theorems": [
    "C19_align",
    "C19_align_succeeds",
    "C19_align_ndim",
    "C19_align_join_length",
    "C19_align_join_type",
    "C19_align_empty_refuted"
   ],
   "note": "proved with the exact condition of success, an equivalence (C19_align_succeeds): the labels to be sorted are comparable, no operand with an axis of length zero gets a label, and an int or bool operand gets a new label only with cast; refuted for outer joins with an axis of length zero (IndexError)"
  },
  {
   "property": "C20",
   "status": "partial",
   "theorems": [
    "C20_arith",
    "C20_arith_succeeds",
    "C20_arith_order",
    "C20_arith_commutes",
    "C20_logic",
    "C20_logic_succeeds",
    "C20_logic_order",
    "C20_compare",
    "C20_compare_succeeds",
    "C20_compare_ndim",
    "C20_compare_str_refuted"
   ],
   "note": "proved for all larrys of numerical dtype (comparisons: of one kind); refuted for == between a str and a numerical larry, whose result is ill formed; success is an equivalence: same number of axes, numerical dtypes and the shared labels of differing axes comparable"
  },
  {
   "property": "C21",
   "status": "partial",
   "theorems": [
    "C21_binaryop",
    "C21_arith",
    "C21_arith_succeeds",
    "C21_functions",
    "C21_skip_refuted"
   ],
   "note": "proved for every join except 'skip', where the result has None instead of a label list (refuted); for arithmetic functions success is characterised exactly; the effect of putmask on the inputs is part of C22"
  },
  {
   "property": "C22",
   "status": "partial",
   "theorems": [
    "C22_inputs_kept_partial",
    "C22_program_partial",
    "C22_results_own_partial",
    "C22_results_share",
    "C22_in_place",
    "C22_nocopy",
    "C22_independent",
    "C22_merge_partial",
    "C22_merge_same",
    "C22_binaryop_partial",
    "C22_getitem_refuted",
    "C22_pull_refuted",
    "C22_squeeze_refuted",
    "C22_lix_refuted",
    "C22_merge_refuted",
    "C22_binaryop_refuted"
   ],
   "note": "heap model of buffers, views, label lists and larry objects for every call of C07's programs; proved: no other call than the in-place ones, merge and binaryop with missone/misstwo changes what exists, and results of all calls but getitem, pull, squeeze, lix and merge are entirely new; refuted by programs: writing to a result of getitem, pull, squeeze or lix shows in the argument, merge of equally labelled larrys and binaryop with missone change their argument"
  },
  {
   "property": "C23",
   "status": "partial",
   "theorems": [
    "C23_align_axis",
    "C23_align_axis_succeeds",
    "C23_align_axis_any",
    "C23_align_axis_refuted"
   ],
   "note": "proved for left and right joins on any axes and inner and outer joins on the same axis; refuted for different axes, where the code reads the labels of each larry along the axis given for the larry before it (C23_align_axis_any says exactly what comes out); success is an equivalence"
  },
  {
   "property": "C24",
   "status": "proved",
   "theorems": [
    "C24_union",
    "C24_union_succeeds",
    "C24_intersection",
    "C24_intersection_succeeds",
    "C24_union_order",
    "C24_intersection_order"
   ],
   "note": ""
  },
  {
   "property": "C25",
   "status": "proved",
   "theorems": [
    "C25_flatten",
    "C25_flatten_order",
    "C25_flatten_error",
    "C25_unflatten",
    "C25_unflatten_any",
    "C25_unflatten_equal",
    "C25_unflatten_empty",
    "C25_unflatten_error"
   ],
   "note": ""
  },
  {
   "property": "C26",
   "status": "proved",
   "theorems": [
    "C26_fromtuples",
    "C26_fromlist",
    "C26_length",
    "C26_single",
    "C26_tuples",
    "C26_list",
    "C26_dict",
    "C26_equal",
    "C26_empty"
   ],
   "note": ""
  },
  {
   "property": "C27",
   "status": "proved",
   "theorems": [
    "C27_sortaxis",
    "C27_sortaxis_succeeds",
    "C27_sortaxis_idempotent",
    "C27_sortaxis_order"
   ],
   "note": ""
  },
  {
   "property": "C28",
   "status": "proved",
   "theorems": [
    "C28_flipaxis",
    "C28_flipaxis_all",
    "C28_flipaxis_involutive",
    "C28_flipaxis_all_involutive",
    "C28_flipaxis_error"
   ],
   "note": ""
  },
  {
   "property": "C29",
   "status": "proved",
   "theorems": [
    "C29_transpose",
    "C29_transpose_involutive",
    "C29_swap_total",
    "C29_swapaxes",
    "C29_swapaxes_involutive",
    "C29_swapaxes_error"
   ],
   "note": ""
  },
  {
   "property": "C30",
   "status": "partial",
   "theorems": [
    "C30_insertaxis",
    "C30_insertaxis_pull",
    "C30_insertaxis_squeeze",
    "C30_squeeze",
    "C30_insertaxis_pull_refuted",
    "C30_insertaxis_above",
    "C30_insertaxis_below",
    "C30_insertaxis_none"
   ],
   "note": "proved for all legal axes; pull does not undo insertaxis on a larry of shape (1,) (refuted), squeeze of a larry whose axes all have length 1 is a 0d, ill-formed larry (the iff in C30_squeeze)"
  },
  {
   "property": "C31",
   "status": "proved",
   "theorems": [
    "C31_lag_positive",
    "C31_lag_negative",
    "C31_lag_zero",
    "C31_lag_error"
   ],
   "note": ""
  },
  {
   "property": "C32",
   "status": "proved",
   "theorems": [
    "C32_cum",
    "C32_cum_succeeds",
    "C32_cum_none"
   ],
   "note": ""
  },
  {
   "property": "C33",
   "status": "partial",
   "theorems": [
    "C33_reduce",
    "C33_truth",
    "C33_reduce_succeeds",
    "C33_reduce_empty",
    "C33_std",
    "C33_prod_partial",
    "C33_prod_empty",
    "C33_prod_int",
    "C33_prod_int_refuted"
   ],
   "note": "any and all count NaN as true, as documented; lanes are over exact rationals with NaN and infinities; std takes the square root as a parameter. prod is proved for float larrys and for int and bool larrys reduced to a scalar; along an axis of a 2d or larger int larry it raises ValueError because NaN is written into an int array (C33_prod_int: always; witness C33_prod_int_refuted)"
  },
  {
   "property": "C34",
   "status": "proved",
   "theorems": [
    "C34_clip",
    "C34_clip_bounds"
   ],
   "note": "float larrys with any bounds and int larrys with int bounds; numpy promotes int data clipped with float bounds, which is not modelled"
  },
  {
   "property": "C35",
   "status": "partial",
   "theorems": [
    "C35_vacuum",
    "C35_vacuum_finite",
    "C35_vacuum_idempotent",
    "C35_vacuum_negative_refuted",
    "C35_vacuum_error"
   ],
   "note": "numerical dtypes; the int or tuple names the axes that are kept whole, as documented; a negative axis is not counted from the end (C35_vacuum_negative_refuted)"
  },
  {
   "property": "C36",
   "status": "partial",
   "theorems": [
    "C36_cut_missing",
    "C36_cut_missing_none",
    "C36_cut_missing_none_refuted",
    "C36_cut_missing_error"
   ],
   "note": "proved for every axis; with axis=None nothing is cut (C36_cut_missing_none, _refuted); an empty result is larry([])"
  },
  {
   "property": "C37",
   "status": "proved",
   "theorems": [
    "C37_push",
    "C37_push_axis",
    "C37_push_error"
   ],
   "note": "integer windows; infinities count as missing and are replaced too"
  },
  {
   "property": "C38",
   "status": "proved",
   "theorems": [
    "C38_ismissing",
    "C38_nan_replace",
    "C38_nan_replace_succeeds",
    "C38_nan_replace_error",
    "C38_nans",
    "C38_nans_succeeds",
    "C38_nans_error"
   ],
   "note": "object arrays hold None and other opaque objects"
  },
  {
   "property": "C39",
   "status": "partial",
   "theorems": [
    "C39_movingsum_partial",
    "C39_movingsum_error",
    "C39_forward_partial",
    "C39_forward_error",
    "C39_infinity_refuted"
   ],
   "note": "exact rationals; behind an infinity the difference of cumulative sums is proved to be NaN, against the documentation (C39_infinity_refuted)"
  },
  {
   "property": "C40",
   "status": "proved",
   "theorems": [
    "C40_windows",
    "C40_agree",
    "C40_error",
    "C40_median",
    "C40_ranking",
    "C40_layouts"
   ],
   "note": "func is an arbitrary function of the window values; the strides method is modelled on views (offset, strides, buffer) and proved for every layout of the array in memory"
  },
  {
   "property": "C41",
   "status": "proved",
   "theorems": [
    "C41_succeeds",
    "C41_ranks",
    "C41_order",
    "C41_antisymmetric",
    "C41_affine",
    "C41_affine_order",
    "C41_gaussian",
    "C41_error"
   ],
   "note": "float and int larrys; exact rationals; the inverse normal distribution of norm='gaussian' is a parameter"
  },
  {
   "property": "C42",
   "status": "partial",
   "theorems": [
    "C42_lastrank_partial",
    "C42_lastrank_value",
    "C42_lastrank_error",
    "C42_lastrank_single_refuted",
    "C42_lastrank_inf_refuted"
   ],
   "note": "proved for lanes without infinities whose last element is NaN or which have two non-NaN elements; refuted for a lane with a single non-NaN element (NaN instead of 0) and with infinities. decay is property C67"
  },
  {
   "property": "C43",
   "status": "proved",
   "theorems": [
    "C43_quantile",
    "C43_quantile_error",
    "C43_quantile_axis_error",
    "C43_argsort_exists"
   ],
   "note": "for every argsort that sorts; infinities become NaN for q > 1 (the code bins finite elements only)"
  },
  {
   "property": "C44",
   "status": "proved",
   "theorems": [
    "C44_mean",
    "C44_median",
    "C44_ranking",
    "C44_by_label",
    "C44_error"
   ],
   "note": "float and int larrys; groups are strings, numbers, None and NaN (which is no group); groups of mixed type are a TypeError as in Python 3"
  },
  {
   "property": "C45",
   "status": "proved",
   "theorems": [
    "C45_cross_validation",
    "C45_cross_validation_error"
   ],
   "note": "for every shuffle that permutes; the generator is the list of pairs it yields"
  },
  {
   "property": "C46",
   "status": "proved",
   "theorems": [
    "C46_bootstrap",
    "C46_bootstrap_ends",
    "C46_bootstrap_error"
   ],
   "note": "the loop has fuel because it need not end; the order of the test set (a Python set) is ascending in the model, the theorem only uses it as a set"
  },
  {
   "property": "C47",
   "status": "proved",
   "theorems": [
    "C47_dictionary",
    "C47_type_error"
   ],
   "note": "keys without groups; Python 2 target; every change of the HDF5 file is modelled, labels as h5py stores them; integers of more than 64 bits and object data are refused"
  },
  {
   "property": "C48",
   "status": "proved",
   "theorems": [
    "C48_label",
    "C48_larry",
    "C48_mixed"
   ],
   "note": "labels of 64 bit integers, strings without a NUL at the end, dates, naive times and datetimes"
  },
  {
   "property": "C49",
   "status": "partial",
   "theorems": [
    "C49_never_mixed_partial",
    "C49_others",
    "C49_crash_refuted",
    "C49_failure_refuted"
   ],
   "note": "refuted: the old larry is deleted before the new one is saved, so every overwrite passes a state where the key cannot be loaded (C49_crash_refuted); an assignment with labels of mixed type raises TypeError after the old larry is gone and leaves the key unusable (C49_failure_refuted). Proved: never a mixture of old and new, other keys never change"
  },
  {
   "property": "C50",
   "status": "proved",
   "theorems": [
    "C50_repack"
   ],
   "note": "for fresh temporary names; the content is at every point in the file or in the renamed file; between the two renames the archive's own name does not exist"
  },
  {
   "property": "C51",
   "status": "proved",
   "theorems": [
    "C51_stack",
    "C51_stack_succeeds",
    "C51_stack_not_2d",
    "C51_stack_bad_mode"
   ],
   "note": "float, int and bool larrys; the names are in any order and distinct, as dictionary keys are"
  },
  {
   "property": "C52",
   "status": "partial",
   "theorems": [
    "C52_panel_partial",
    "C52_panel_not_3d",
    "C52_panel_empty",
    "C52_panel_empty_refuted"
   ],
   "note": "proved when the first axis is not empty; refuted otherwise: reshape with -1 raises ValueError (C52_panel_empty: always; witness C52_panel_empty_refuted)"
  },
  {
   "property": "C53",
   "status": "partial",
   "theorems": [
    "C53_cov",
    "C53_cov_entries_partial",
    "C53_cov_few",
    "C53_cov_succeeds",
    "C53_cov_not_2d",
    "C53_cov_inf",
    "C53_cov_bool",
    "C53_cov_inf_refuted"
   ],
   "note": "labels, symmetry, diagonal and the ValueError are proved for all numerical larrys; the value of an entry for int and float larrys unless an infinity stands opposite a NaN, which makes the entry NaN (C53_cov_inf: always; witness C53_cov_inf_refuted); bool larrys are C53_cov_bool"
  },
  {
   "property": "C54",
   "status": "proved",
   "theorems": [
    "C54_sortby",
    "C54_sortby_succeeds",
    "C54_sortby_unknown",
    "C54_sortby_not_2d",
    "C54_argsort_exists"
   ],
   "note": "for every argsort that sorts (ties in any order); object arrays are not modelled; an unknown element or axis is an error"
  },
  {
   "property": "C55",
   "status": "proved",
   "theorems": [
    "C55_lrange",
    "C55_lrange_dtype",
    "C55_lrange_int",
    "C55_lrange_succeeds",
    "C55_empty",
    "C55_empty_succeeds",
    "C55_ones",
    "C55_zeros",
    "C55_ones_zeros_succeed",
    "C55_neither",
    "C55_rand"
   ],
   "note": "rounding in np.arange is not modelled; with dtype=int and float arguments numpy continues the first two stored elements (C55_lrange_int); steps of zero are errors"
  },
  {
   "property": "C56",
   "status": "partial",
   "theorems": [
    "C56_demean",
    "C56_demedian",
    "C56_zero_mean_partial",
    "C56_zero_median_partial",
    "C56_error",
    "C56_infinity_refuted"
   ],
   "note": "the subtraction is proved for all inputs, the zero mean and median for lanes without infinities; refuted with an infinity"
  },
  {
   "property": "C57",
   "status": "proved",
   "theorems": [
    "C57_isaligned_all",
    "C57_isaligned_axis"
   ],
   "note": ""
  },
  {
   "property": "C58",
   "status": "partial",
   "theorems": [
    "C58_shuffle",
    "C58_shuffle_succeeds",
    "C58_shuffle_bad_axis",
    "C58_shuffle_reaches",
    "C58_shufflelabel",
    "C58_shufflelabel_succeeds",
    "C58_shufflelabel_mixed",
    "C58_shufflelabel_mixed_refuted"
   ],
   "note": "the random numbers are parameters. The exact condition for shufflelabel to succeed is proved: no label without slices in a list that starts with a nonempty string or tuple; otherwise numpy 1.6-1.8 raises TypeError whatever the random numbers (C58_shufflelabel_mixed, witness C58_shufflelabel_mixed_refuted)"
  },
  {
   "property": "C59",
   "status": "proved",
   "theorems": [
    "C59_split",
    "C59_split_folds"
   ],
   "note": ""
  },
  {
   "property": "C60",
   "status": "partial",
   "theorems": [
    "C60_array",
    "C60_array_succeeds",
    "C60_array_valid_iff",
    "C60_logic_array",
    "C60_compare_array",
    "C60_scalar",
    "C60_scalar_succeeds",
    "C60_logic_scalar",
    "C60_compare_scalar",
    "C60_other_operands",
    "C60_bigger_refuted"
   ],
   "note": "proved exactly when the array broadcasts to the shape of y (iff); refuted for arrays broadcasting to a bigger shape"
  },
  {
   "property": "C61",
   "status": "partial",
   "theorems": [
    "C61_reflected",
    "C61_reflected_succeeds",
    "C61_divide_array",
    "C61_bool_subtract_refuted"
   ],
   "note": "proved except bool - bool larry, which is refuted: it is computed as the logical not of the exclusive or (numpy < 1.13 arithmetic)"
  },
  {
   "property": "C62",
   "status": "proved",
   "theorems": [
    "C62_neg",
    "C62_neg_involutive",
    "C62_abs",
    "C62_sign",
    "C62_unary_succeeds",
    "C62_isnan",
    "C62_isfinite",
    "C62_isinf",
    "C62_tests_succeed",
    "C62_invert",
    "C62_invert_iff",
    "C62_invert_involutive"
   ],
   "note": ""
  },
  {
   "property": "C63",
   "status": "proved",
   "theorems": [
    "C63_setitem",
    "C63_setitem_succeeds",
    "C63_setitem_larry",
    "C63_setitem_larry_succeeds",
    "C63_setmask",
    "C63_setmask_succeeds"
   ],
   "note": ""
  },
  {
   "property": "C64",
   "status": "proved",
   "theorems": [
    "C64_zscore",
    "C64_unit_variance"
   ],
   "note": "the square root is a parameter; unit variance where it is exact"
  },
  {
   "property": "C65",
   "status": "partial",
   "theorems": [
    "C65_no_kwargs_partial",
    "C65_kwargs_refuted"
   ],
   "note": "refuted: larry.move_func accepts **kwargs and drops them; proved for calls without key words"
  },
  {
   "property": "C66",
   "status": "partial",
   "theorems": [
    "C66_keeps",
    "C66_vacuum",
    "C66_error",
    "C66_refuted",
    "C66_int_refuted",
    "C66_bool_refuted"
   ],
   "note": "proved for float larrys; with vacuum the rows and columns without finite data go (an infinity satisfying the condition is lost: C66_refuted); int larrys always raise and bool larrys become True (refuted)"
  },
  {
   "property": "C67",
   "status": "proved",
   "theorems": [
    "C67_lanes",
    "C67_bounds",
    "C67_nearer_weighs_more",
    "C67_no_decay",
    "C67_axis",
    "C67_error"
   ],
   "note": "exp is any function whose values at -decay*d are positive; lanes without infinities"
  },
  {
   "property": "C68",
   "status": "partial",
   "theorems": [
    "C68_lanes",
    "C68_symmetric",
    "C68_bounds",
    "C68_constant",
    "C68_defined",
    "C68_self",
    "C68_refuted"
   ],
   "note": "sqrt is any function exact on squares of rationals (for the bound: never below the root); lanes without infinities; refuted for an int array opposite NaN when an axis is given"
  },
  {
   "property": "C69",
   "status": "proved",
   "theorems": [
    "C69_lanes",
    "C69_check"
   ],
   "note": "log and exp are any functions with log 1 = 0"
  },
  {
   "property": "C70",
   "status": "proved",
   "theorems": [
    "C70_elementwise",
    "C70_int_power",
    "C70_float_power",
    "C70_error"
   ],
   "note": "the functions are parameters; int to a negative int power is not modelled"
  },
  {
   "property": "C71",
   "status": "partial",
   "theorems": [
    "C71_file",
    "C71_csv",
    "C71_equal",
    "C71_empty",
    "C71_delimiter",
    "C71_label_refuted",
    "C71_bool_refuted",
    "C71_python3_refuted"
   ],
   "note": "Holds for larrys whose labels differ as text along every axis, with str, repr and float() as parameters that fit together; refuted for labels with equal text, bool data and, with Python 3, carriage returns in labels."
  },
  {
   "property": "C72",
   "status": "partial",
   "theorems": [
    "C72_fromcsv",
    "C72_number",
    "C72_empty",
    "C72_stop",
    "C72_blank",
    "C72_python3_refuted",
    "C72_missing_refuted"
   ],
   "note": "Proved against a grammar of csv files (RFC 4180). Refuted: a missing value is not noticed (rows are cut to the shortest), and skiprows fails with Python 3."
  },
  {
   "property": "C73",
   "status": "partial",
   "theorems": [
    "C73_tofile",
    "C73_error",
    "C73_no_columns",
    "C73_no_columns_refuted",
    "C73_quoting_refuted"
   ],
   "note": "Proved for one-character delimiters when no label or value contains the delimiter or a line feed; refuted otherwise and for 2d larrys without columns, whose file is given exactly (C73_no_columns)."
  },
  {
   "property": "C74",
   "status": "proved",
   "theorems": [
    "C74_call",
    "C74_in_place",
    "C74_program",
    "C74_program_in_place",
    "C74_merge",
    "C74_binaryop",
    "C74_start"
   ],
   "note": "Heap.v (memory) is proved to compute what Session.v (values) computes; calls that write without being documented to (merge, binaryop with missone/misstwo) are the subject of C22. Scalars and plain arrays returned are not compared, only larrys."
  },
  {
   "property": "C75",
   "status": "partial",
   "theorems": [
    "C75_dictionary_partial",
    "C75_again_refuted",
    "C75_group_refuted",
    "C75_inside_refuted",
    "C75_through_data"
   ],
   "note": "True for programs whose keys do not lead through each other and that assign to no key with a slash twice (C75_dictionary_partial). False otherwise: assigning to an existing key with a slash always raises RuntimeError (C75_again_refuted), an emptied group blocks its own name (C75_group_refuted), deleting a larry deletes those inside it and clear then fails (C75_inside_refuted)."
  },
  {
   "property": "C76",
   "status": "partial",
   "theorems": [
    "C76_quotes_partial",
    "C76_proportion",
    "C76_repeat_refuted",
    "C76_no_day_refuted",
    "C76_fetch",
    "C76_no_tickers_refuted"
   ],
   "note": "Proved for different tickers that all have entries, without infinite numbers (C76_quotes_partial). A repeated ticker, a ticker without entries and an empty sequence always raise (refuted theorems, for all inputs)."
  },
  {
   "property": "C77",
   "status": "partial",
   "theorems": [
    "C77_iscopy_partial",
    "C77_apart",
    "C77_calls",
    "C77_symmetric",
    "C77_exclusive",
    "C77_isview_partial",
    "C77_cross_axis_refuted",
    "C77_no_element_refuted",
    "C77_isview_refuted",
    "C77_squeeze_refuted"
   ],
   "note": "Proved: a pass of assert_iscopy rules out shared elements and shared lists of the same axis, larrys apart pass, the results of all calls that return copies pass, both checks are symmetric and exclude each other, and what a pass of assert_isview means. Refuted as documented: lists shared by different axes, ranges that overlap without common elements, squeeze."
  },
  {
   "property": "C78",
   "status": "partial",
   "theorems": [
    "C78_table_partial",
    "C78_justification",
    "C78_lines",
    "C78_one_column_refuted",
    "C78_one_row_refuted",
    "C78_short_row_refuted",
    "C78_archive_partial",
    "C78_empty_archive_refuted",
    "C78_wrap_always",
    "C78_wrap_onspace",
    "C78_wrap_strict_partial",
    "C78_wrap_strict_refuted"
   ],
   "note": "Proved for tables with two or more columns, rows of equal length and two or more lines, for archives with larrys, and for texts whose white space is spaces and line feeds. Refuted: one column, one row, rows of different lengths, the empty archive, tabs."
  },
  {
   "property": "C79",
   "status": "partial",
   "theorems": [
    "C79_unique",
    "C79_sorts",
    "C79_no_nan",
    "C79_nan_refuted"
   ],
   "note": "Proved with NaN repeated as often as in the data; without NaN the elements are unique. Refuted: NaN occurs more than once."
  },
  {
   "property": "C80",
   "status": "partial",
   "theorems": [
    "C80_equal",
    "C80_headings",
    "C80_exact",
    "C80_reflexive",
    "C80_symmetric",
    "C80_original",
    "C80_calls",
    "C80_scalars",
    "C80_larry_only",
    "C80_strings_refuted",
    "C80_transitive_refuted",
    "C80_iscopy_refuted",
    "C80_object_refuted"
   ],
   "note": "Proved for float, int, bool and string larrys and for numbers. Refuted: string scalars, transitivity, the documented meaning of iscopy, NaN in object larrys."
  },
  {
   "property": "C81",
   "status": "partial",
   "theorems": [
    "C81_shows",
    "C81_same_text",
    "C81_same_labels",
    "C81_long",
    "C81_long_refuted",
    "C81_types_refuted",
    "C81_newline_refuted"
   ],
   "note": "Proved: the text by lines; same text gives same labels for axes of up to ten labels without line feeds and with different texts. Refuted outside of these."
  },
  {
   "property": "C82",
   "status": "partial",
   "theorems": [
    "C82_sum_partial",
    "C82_mean_partial",
    "C82_std_partial",
    "C82_min",
    "C82_max",
    "C82_error",
    "C82_movingsum",
    "C82_infinity_refuted"
   ],
   "note": "Proved for every window before which there is no infinity; behind an infinity sum, mean and std are NaN whatever the window holds (refuted). min and max proved in full."
  },
  {
   "property": "C83",
   "status": "proved",
   "theorems": [
    "C83_astype",
    "C83_same",
    "C83_object",
    "C83_int_float_int",
    "C83_float_int_float",
    "C83_bool_back",
    "C83_bool_int_float",
    "C83_constructor"
   ],
   "note": "NaN and infinities as ints and texts are outside the model (NotImplementedError in the model); ints are unbounded, arithmetic is exact."
  },
  {
   "property": "C84",
   "status": "partial",
   "theorems": [
    "C84_larrys",
    "C84_scalar",
    "C84_reflected",
    "C84_python2_float",
    "C84_python2_floor",
    "C84_python2_refuted"
   ],
   "note": "True in Python 3, and in Python 2 when one side is float; for ints and bools in Python 2 the result is that of // (refuted, with the exact result proved)."
  },
  {
   "property": "C85",
   "status": "partial",
   "theorems": [
    "C85_getitem_partial",
    "C85_all",
    "C85_open",
    "C85_open_error",
    "C85_attributes",
    "C85_setitem",
    "C85_setitem_total",
    "C85_setitem_error",
    "C85_set_larry_error",
    "C85_set_larry",
    "C85_list_error",
    "C85_bools_error",
    "C85_empty",
    "C85_list_refuted",
    "C85_empty_refuted",
    "C85_set_larry_refuted",
    "C85_stale_refuted"
   ],
   "note": "True (and exactly stated) for integers, slices and tuples with forward slices, increasing lists and nonempty result, and for scalar assignment; refuted for lists outside tuples, for empty larrys, for larrys as values and for laras opened before the larry was replaced."
  },
  {
   "property": "C86",
   "status": "partial",
   "theorems": [
    "C86_noreference_partial",
    "C86_apart",
    "C86_calls",
    "C86_nocopy_iff",
    "C86_nocopy",
    "C86_self",
    "C86_error",
    "C86_view_refuted",
    "C86_cross_axis_refuted"
   ],
   "note": "nocopy and the errors are proved as documented; noreference is characterised exactly and refuted for views (different array objects on the same data) and for label lists shared by different axes."
  },
  {
   "property": "C87",
   "status": "proved",
   "theorems": [
    "C87_copy",
    "C87_reference",
    "C87_write_copy",
    "C87_write_reference",
    "C87_label_copy",
    "C87_label_reference",
    "C87_label_error",
    "C87_copylabel"
   ],
   "note": "Proved for all states of memory."
  },
  {
   "property": "C88",
   "status": "proved",
   "theorems": [
    "C88_setitem",
    "C88_setitem_succeeds",
    "C88_too_many_axes",
    "C88_out_of_range",
    "C88_mask",
    "C88_mask_succeeds",
    "C88_mask_misaligned",
    "C88_lix",
    "C88_lix_succeeds"
   ],
   "note": "Proved for indices without repetitions whose integers and lists are not separated by a slice unless the list comes first. Arrays with additional leading axes of length 1 are not modelled."
  },
  {
   "property": "C89",
   "status": "proved",
   "theorems": [
    "C89_cells",
    "C89_lanes",
    "C89_reductions",
    "C89_unique",
    "C89_take_is_part",
    "C89_keep_label_is_part",
    "C89_morph_is_part",
    "C89_flipaxis_is_part",
    "C89_sortaxis_is_part",
    "C89_take_cells",
    "C89_take_lanes",
    "C89_take_reductions"
   ],
   "note": "Parts without labels are covered for elementwise methods only: reductions and lane methods treat empty arrays apart."
  },
  {
   "property": "C90",
   "status": "proved",
   "theorems": [
    "C90_order",
    "C90_total",
    "C90_transitive",
    "C90_comparable",
    "C90_sorted",
    "C90_sorted_error"
   ],
   "note": "For labels whose times and datetimes have no UTC offset and fields in range; the model orders times with offsets by their fields, see DESIGN.md."
  },
  {
   "property": "C91",
   "status": "proved",
   "theorems": [
    "C91_summary",
    "C91_normalise",
    "C91_flipaxis",
    "C91_sortaxis"
   ],
   "note": "Over exact rationals; floating-point rounding that depends on the order of summation is not modelled."
  },
  {
   "property": "C92",
   "status": "proved",
   "theorems": [
    "C92_maxlabel",
    "C92_minlabel",
    "C92_succeeds",
    "C92_empty_axis",
    "C92_empty_larry",
    "C92_bad_axis"
   ],
   "note": "The order is characterised for labels whose times and datetimes have no UTC offset."
  },
  {
   "property": "C93",
   "status": "proved",
   "theorems": [
    "C93_summary",
    "C93_mean",
    "C93_conditions"
   ],
   "note": "Over exact rationals; rounding is not modelled."
  },
  {
   "property": "C94",
   "status": "proved",
   "theorems": [
    "C94_program",
    "C94_lookup",
    "C94_tuplewise",
    "C94_prefix",
    "C94_days",
    "C94_conditions"
   ],
   "note": "How labels without an offset are ordered is C90; the statement uses the order of the model so that times with offsets are included."
  },
  {
   "property": "C95",
   "status": "proved",
   "theorems": [
    "C95_cells",
    "C95_lanes",
    "C95_reductions",
    "C95_summaries",
    "C95_normalisations",
    "C95_unique",
    "C95_back",
    "C95_swapaxes",
    "C95_T",
    "C95_T_cells",
    "C95_T_lanes",
    "C95_T_reductions"
   ],
   "note": "When both calls fail the statement does not say that the exceptions are the same."
  },
  {
   "property": "C96",
   "status": "proved",
   "theorems": [
    "C96_operators",
    "C96_shift_reduce",
    "C96_shift_spread",
    "C96_shift_centred",
    "C96_shift_windows",
    "C96_scale_reduce",
    "C96_scale_methods",
    "C96_scale_positive_reduce",
    "C96_scale_positive_methods",
    "C96_negate",
    "C96_increasing_extremes",
    "C96_increasing_ranks",
    "C96_increasing"
   ],
   "note": "Exact arithmetic. For standard deviations and zscore the square root is a parameter that is assumed to satisfy sqrt (c * c * v) = c * sqrt v."
  },
  {
   "property": "C97",
   "status": "partial",
   "theorems": [
    "C97_arith_commutes",
    "C97_arith_associates_partial",
    "C97_arith_distributes_partial",
    "C97_subtraction",
    "C97_units",
    "C97_difference_of_itself",
    "C97_comparison_mirrored",
    "C97_comparison_inverted_partial",
    "C97_logic_commutes",
    "C97_logic_associates",
    "C97_logic_distributes",
    "C97_logic_inverted",
    "C97_logic_itself",
    "C97_add_bool_refuted",
    "C97_distribute_inf_refuted",
    "C97_comparison_nan_refuted"
   ],
   "note": "Exact arithmetic: rounding breaks associativity and distribution of floats. The laws hold for all larrys except that + associates only when the dtypes do not mix two bool larrys with a number larry, * distributes only when the factor holds no infinity, and >= is the inverse of < only without NaN; the three exceptions are refuted with witnesses."
  },
  {
   "property": "C98",
   "status": "partial",
   "theorems": [
    "C98_isint_partial",
    "C98_isint_refuted",
    "C98_isfloat",
    "C98_isscalar",
    "C98_int_or_float",
    "C98_isstring",
    "C98_index_partial",
    "C98_index_integer_partial",
    "C98_index_other",
    "C98_index_refuted",
    "C98_randstring",
    "C98_randstring_any",
    "C98_freespace",
    "C98_datasets"
   ],
   "note": "isint, isscalar and indexing hold for all types but NumPy's unsigned integers, for which they are refuted. datetime64 and timedelta64 scalars are not modelled."
  },
  {
   "property": "C99",
   "status": "proved",
   "theorems": [
    "C99_centred",
    "C99_zscore",
    "C99_square_root",
    "C99_ranking_centred",
    "C99_ranking"
   ],
   "note": ""
  },
  {
   "property": "C100",
   "status": "proved",
   "theorems": [
    "C100_morph",
    "C100_morph_back",
    "C100_take",
    "C100_keep_label",
    "C100_keep_label_again",
    "C100_lag",
    "C100_lag_negative",
    "C100_lag_back",
    "C100_sort_flip",
    "C100_sort_again",
    "C100_clip",
    "C100_nan_replace",
    "C100_merge_self",
    "C100_merge",
    "C100_align",
    "C100_squeeze",
    "C100_maplabel"
   ],
   "note": ""
  },
  {
   "property": "C101",
   "status": "proved",
   "theorems": [
    "C101_get",
    "C101_lix_get",
    "C101_set",
    "C101_fill",
    "C101_take",
    "C101_keep_label",
    "C101_flipaxis",
    "C101_pull",
    "C101_lix_pull",
    "C101_squeeze",
    "C101_take_morph",
    "C101_keep_label_morph",
    "C101_flipaxis_morph",
    "C101_sortaxis_morph",
    "C101_align_left",
    "C101_align_right",
    "C101_transpose",
    "C101_nan_replace",
    "C101_demean",
    "C101_demedian",
    "C101_any",
    "C101_max"
   ],
   "note": ""
  },
  {
   "property": "C102",
   "status": "proved",
   "theorems": [
    "C102_arith",
    "C102_scalar",
    "C102_floor",
    "C102_int",
    "C102_compare",
    "C102_set",
    "C102_set_iff"
   ],
   "note": ""
  },
  {
   "property": "C103",
   "status": "proved",
   "theorems": [
    "C103_total",
    "C103_slice",
    "C103_slice_refused",
    "C103_int",
    "C103_scalar",
    "C103_int_refused",
    "C103_take",
    "C103_selects_int",
    "C103_selects_slice"
   ],
   "note": ""
  },
  {
   "property": "C104",
   "status": "proved",
   "theorems": [
    "C104_valid",
    "C104_combinations",
    "C104_one",
    "C104_order",
    "C104_type",
    "C104_promoted",
    "C104_kept"
   ],
   "note": ""
  },
  {
   "property": "C105",
   "status": "proved",
   "theorems": [
    "C105_mean",
    "C105_variance",
    "C105_moving",
    "C105_moving_median"
   ],
   "note": ""
  },
  {
   "property": "C106",
   "status": "proved",
   "theorems": [
    "C106_extremes",
    "C106_reduce",
    "C106_cumsum",
    "C106_moving",
    "C106_moving_median",
    "C106_infinity"
   ],
   "note": "sum, mean, median, cumsum and the moving mean and median for larrys without infinities, as the statement says; C106_infinity shows that the condition is needed"
  },
  {
   "property": "C107",
   "status": "proved",
   "theorems": [
    "C107_whole",
    "C107_conditions",
    "C107_merge"
   ],
   "note": "sum and merge for larrys without infinities, as the statement says; C107_conditions gives the pairs of conditions to which C107_whole applies"
  },
  {
   "property": "C108",
   "status": "proved",
   "theorems": [
    "C108_whole",
    "C108_whole_median",
    "C108_whole_std",
    "C108_whole_ranking",
    "C108_single",
    "C108_single_median",
    "C108_cumsum",
    "C108_cumprod"
   ],
   "note": "windows of one element: sum and mean for larrys without infinities, as the statement says (C82_infinity_refuted is the counterexample with them)"
  },
  {
   "property": "C109",
   "status": "proved",
   "theorems": [
    "C109_one_mean",
    "C109_one_median",
    "C109_one_ranking",
    "C109_own_mean",
    "C109_own_median",
    "C109_own_ranking"
   ],
   "note": ""
  },
  {
   "property": "C110",
   "status": "proved",
   "theorems": [
    "C110_skip",
    "C110_lag",
    "C110_cumsum",
    "C110_cumprod"
   ],
   "note": ""
  },
  {
   "property": "C111",
   "status": "proved",
   "theorems": [
    "C111_names",
    "C111_others"
   ],
   "note": ""
  },
  {
   "property": "C112",
   "status": "proved",
   "theorems": [
    "C112_moving",
    "C112_movingsum",
    "C112_median",
    "C112_ranking",
    "C112_func",
    "C112_push",
    "C112_cumulative",
    "C112_forward"
   ],
   "note": ""
  },
  {
   "property": "C113",
   "status": "proved",
   "theorems": [
    "C113_reduce",
    "C113_std",
    "C113_ranking",
    "C113_demean",
    "C113_demedian",
    "C113_zscore",
    "C113_groups"
   ],
   "note": ""
  },
  {
   "property": "C114",
   "status": "proved",
   "theorems": [
    "C114_mean",
    "C114_median",
    "C114_ranking"
   ],
   "note": ""
  },
  {
   "property": "C115",
   "status": "proved",
   "theorems": [
    "C115_reduce",
    "C115_ranking",
    "C115_normalise",
    "C115_moving",
    "C115_windows",
    "C115_groups",
    "C115_std",
    "C115_movingsum",
    "C115_forward",
    "C115_push",
    "C115_cumulative"
   ],
   "note": ""
  }
 ]
}