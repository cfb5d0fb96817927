{"id": "C01", "title": "listmap maps one list onto another", "statement": "listmap(list1, list2) returns indices idx with [list1[i] for i in idx] == list2 when every element of list2 occurs in list1, and raises KeyError otherwise; with ignore_unmappable=True it never raises and maps exactly the mappable elements of list2, in order.", "quantifier": "every pair of lists of hashable labels, with or without duplicates, any lengths, either flag", "why_tests_cant": "the claim ranges over all pairs of lists including duplicates and partial overlaps; tests sample a handful", "anchors": ["la/flabel.py:listmap", "la/src/cflabel.pyx:listmap"]}
{"id": "C02", "title": "listmap_fill separates mappable and unmappable labels", "statement": "listmap_fill(list1, list2, fill) returns (index, missing): index has the length of list2; position i holds an index of list2[i] in list1 if list2[i] occurs in list1 and fill otherwise; missing is the strictly increasing list of exactly those positions i whose element is not in list1.", "quantifier": "every pair of lists and every fill value", "why_tests_cant": "all list pairs, all overlap patterns", "anchors": ["la/flabel.py:listmap_fill", "la/src/cflabel.pyx:listmap_fill"]}
{"id": "C03", "title": "Python and Cython label maps are interchangeable", "statement": "The pure Python and the Cython implementations of listmap and listmap_fill return the same result, or raise the same exception, on every input, so which one was imported is unobservable.", "quantifier": "every pair of lists, both flags, every fill", "why_tests_cant": "equivalence of two programs over an infinite input space; the test suite only ever runs one of them per build", "anchors": ["la/flabel.py:listmap", "la/flabel.py:listmap_fill", "la/src/cflabel.pyx:listmap", "la/src/cflabel.pyx:listmap_fill"]}
{"id": "C04", "title": "flattenlabel enumerates the label grid in array order", "statement": "flattenlabel(label, order) returns one list containing every tuple of the cartesian product of the axis labels exactly once, and its k-th tuple is the coordinate of the k-th element of the data array flattened in the same order ('C' or 'F'); any other order raises ValueError.", "quantifier": "any number of axes, any axis lengths including 0, both orders", "why_tests_cant": "agreement of two independently coded traversal orders for every shape", "anchors": ["la/flabel.py:flattenlabel", "la/deflarry.py:larry.flatten"]}
{"id": "C05", "title": "list2index is a sorted-unique factorization", "statement": "list2index(L) returns (idx, u) where u is strictly increasing, has exactly the elements of L, and [u[i] for i in idx] == L.", "quantifier": "every list of mutually sortable labels", "why_tests_cant": "all lists, all duplicate patterns", "anchors": ["la/flabel.py:list2index"]}
{"id": "C06", "title": "The constructor accepts exactly the well formed larrys", "statement": "larry(x, label) succeeds iff x has at least one dimension, label has one list per dimension, each list is as long as that axis and has no repeated element; otherwise it raises ValueError. With label omitted the labels are 0..n-1 along each axis and construction succeeds for every array with at least one dimension.", "quantifier": "every array shape and every list of label lists", "why_tests_cant": "an iff over all shapes and labels; tests give examples of each error", "anchors": ["la/deflarry.py:larry.__init__"]}
{"id": "C07", "title": "Every chain of methods preserves larry integrity", "statement": "Starting from well formed larrys, any finite sequence of the modelled methods that completes without exception yields only well formed larrys (one label list per axis, lengths equal to the data shape, labels unique along each axis, data complete), even though almost all methods skip validation (validate=False).", "quantifier": "every well formed larry and every finite program over the modelled methods with arbitrary arguments", "why_tests_cant": "quantifies over all histories of calls; integrity is not rechecked at run time", "anchors": ["la/deflarry.py:larry", "la/flarry.py"]}
{"id": "C08", "title": "maplabel can break label uniqueness", "statement": "maplabel(func) returns a well formed larry whenever func is injective on each mapped axis; with a non-injective func it returns a larry that violates label uniqueness instead of raising.", "quantifier": "every larry, every label function, every axis argument", "why_tests_cant": "all functions and larrys; tests only use injective str/toordinal", "anchors": ["la/deflarry.py:larry.maplabel"]}
{"id": "C09", "title": "get reads what set wrote and nothing else moves", "statement": "After y.set(label, v), y.get(label) returns v (converted to the dtype of y), y.get at every other label tuple is unchanged, and labels and shape are unchanged; both raise ValueError on a wrong number of labels and IndexError on an unknown label.", "quantifier": "every larry, label tuple and value", "why_tests_cant": "frame condition over all cells of all larrys", "anchors": ["la/deflarry.py:larry.set", "la/deflarry.py:larry.get", "la/deflarry.py:larry.labelindex"]}
{"id": "C10", "title": "Indexing never detaches data from labels", "statement": "y[index] for an integer, slice, list, integer or boolean array, aligned boolean larry, or a tuple of integers, slices and at most one list/array: every element of the result carries exactly the labels it had in y.", "quantifier": "every larry of every dimension and every supported index", "why_tests_cant": "all shapes and all index combinations; the square case where a mislabelled result has a legal shape is easy to miss", "anchors": ["la/deflarry.py:larry.__getitem__"]}
{"id": "C11", "title": "take keeps labels with data", "statement": "y.take(indices, axis) returns the elements at the given positions in the given order with their labels, for positive and negative indices and axes; it raises IndexError when an index is out of range or repeated.", "quantifier": "every larry, index list and axis", "why_tests_cant": "all inputs", "anchors": ["la/deflarry.py:larry.take"]}
{"id": "C12", "title": "Label indexing (lix) is rectangular and label faithful", "statement": "y.lix[...] with label lists, index slices, label slices and integers selects the rectangular block of the requested labels and each element keeps its label; in a tuple index the axes of which one element is selected are dropped; y.lix[...] = v writes exactly that block, and a larry v must carry the labels of the block.", "quantifier": "every larry without empty axes and every lix index", "why_tests_cant": "all index combinations and shapes", "anchors": ["la/deflarry.py:Lix.__getitem__", "la/deflarry.py:Lix.__setitem__", "la/deflarry.py:slicemaker", "la/deflarry.py:labels2indices"]}
{"id": "C13", "title": "labelindex finds the label", "statement": "labelindex(name, axis) returns the unique position of name along axis or raises IndexError; with exact=False and name absent it returns the position of the greatest label that is <= name, or raises IndexError if there is none.", "quantifier": "every larry, name and axis, sorted or unsorted labels", "why_tests_cant": "needs all orderings of the labels: the nearest-label rule is only right for sorted ones", "anchors": ["la/deflarry.py:larry.labelindex"]}
{"id": "C14", "title": "keep_label filters by label", "statement": "keep_label(op, value, axis) returns exactly the slices whose label along axis satisfies the condition, in the original order, with labels and data of everything kept unchanged.", "quantifier": "every larry, operator, value and axis, including conditions no label satisfies", "why_tests_cant": "all predicates and larrys", "anchors": ["la/deflarry.py:larry.keep_label"]}
{"id": "C15", "title": "pull extracts one slice", "statement": "y.pull(name, axis) returns the slice of y at label name with that axis removed and the remaining labels and data unchanged; a scalar is returned only if y is 1d.", "quantifier": "every larry, label and axis", "why_tests_cant": "all shapes including length-1 axes", "anchors": ["la/deflarry.py:larry.pull"]}
{"id": "C16", "title": "morph realigns one axis to a requested label list", "statement": "y.morph(label, axis) has exactly the requested label along axis and the old labels elsewhere; every cell whose label existed keeps its value and every new cell holds the missing marker of the dtype (int and bool are first cast to float); duplicates in the requested label raise IndexError.", "quantifier": "every larry, every requested label list, every axis", "why_tests_cant": "all overlap patterns, dtypes and shapes including empty axes", "anchors": ["la/deflarry.py:larry.morph", "la/missing.py"]}
{"id": "C17", "title": "morph_like aligns to another larry", "statement": "y.morph_like(z) has exactly z's labels, agrees with y on every common cell and holds the missing marker elsewhere; the result is independent of y and z's data.", "quantifier": "every pair of larrys with the same number of dimensions", "why_tests_cant": "all label overlap patterns along all axes at once", "anchors": ["la/deflarry.py:larry.morph_like"]}
{"id": "C18", "title": "merge is the union of two larrys", "statement": "y1.merge(y2) has along every axis the common label if equal, otherwise the sorted union; every cell holding data only in one input keeps it; without update a cell with data in both inputs raises ValueError, with update y2 wins; cells with data in neither are missing.", "quantifier": "every pair of larrys of the same dimension, both flags", "why_tests_cant": "all overlap patterns and value patterns (NaN, infinities, dtypes)", "anchors": ["la/deflarry.py:larry.merge"]}
{"id": "C19", "title": "align joins labels and keeps cells", "statement": "align(y1, y2, join) returns two larrys with, along each axis, the same label: sorted intersection (inner), sorted union (outer), y1's (left), y2's (right), or each its own (skip); equal labels are kept in their order; each output agrees with its input on every common cell and is missing elsewhere.", "quantifier": "every pair of larrys of equal dimension, every list of join methods, both cast flags", "why_tests_cant": "all overlap patterns times all join combinations times dtypes", "anchors": ["la/flarry.py:align", "la/flarry.py:align_raw"]}
{"id": "C20", "title": "Arithmetic aligns by label", "statement": "y1 op y2 for +,-,*,/,&,| and the comparisons yields a larry whose cells are exactly the label tuples present in both operands, each holding op applied to the two operands' cells of that label; operand order along the axes never matters.", "quantifier": "every pair of larrys of equal dimension and every elementwise operator", "why_tests_cant": "all permutations and overlaps of labels", "anchors": ["la/deflarry.py:larry.__add__", "la/deflarry.py:larry.__align", "la/deflarry.py:larry.__compare"]}
{"id": "C21", "title": "binaryop missing value rules", "statement": "la.binaryop/add/subtract/multiply/divide(y1, y2, join, missone, misstwo): each cell of the joined grid is func applied to the aligned values after values missing in exactly one operand are replaced by missone and values missing in both by misstwo (when given).", "quantifier": "every pair of larrys, every join, every missone/misstwo", "why_tests_cant": "all missing patterns", "anchors": ["la/flarry.py:binaryop", "la/flarry.py:add"]}
{"id": "C22", "title": "Operations documented as returning copies leave their inputs alone", "statement": "No modelled function other than the documented in-place ones (set, fill, setitem, shuffle, maplabel/flipaxis with copy=False) changes the labels or data of an input larry or returns a result sharing mutable state with it.", "quantifier": "every sequence of calls in a heap of larrys sharing buffers and label lists", "why_tests_cant": "aliasing shows only through later writes, over all sharing patterns", "anchors": ["la/deflarry.py:larry.merge", "la/flarry.py:binaryop", "la/deflarry.py:larry.copy", "la/deflarry.py:larry.morph", "la/flarry.py:align"]}
{"id": "C23", "title": "align_axis aligns many larrys on one axis each", "statement": "align_axis(lars, axis, join) returns one larry per input; along the chosen axes all outputs have the same label: sorted intersection / union of all inputs' chosen labels, or the first's / last's; each output agrees with its input on common cells.", "quantifier": "every non-empty list of larrys, every axis list, every join", "why_tests_cant": "all numbers of larrys and all axis combinations", "anchors": ["la/flarry.py:align_axis"]}
{"id": "C24", "title": "union and intersection of labels", "statement": "la.union(axis, *lars) is the sorted list of labels in at least one larry, la.intersection the sorted list of labels in all of them, independent of argument order.", "quantifier": "every axis and every list of larrys", "why_tests_cant": "all lists of larrys", "anchors": ["la/flarry.py:union", "la/flarry.py:intersection"]}
{"id": "C25", "title": "flatten and unflatten", "statement": "flatten() gives a 1d larry whose cell (l0,...,lk) is y's cell at those labels, in either order; unflatten(flatten(y)) has the same cells as y (as floats) with sorted labels, so it equals y when y's labels are sorted and y is a non-empty float larry.", "quantifier": "every larry of int or float dtype, every dimension", "why_tests_cant": "a round trip over all shapes, labels and orders", "anchors": ["la/deflarry.py:larry.flatten", "la/deflarry.py:larry.unflatten", "la/util/misc.py:fromlists"]}
{"id": "C26", "title": "Conversions round trip", "statement": "fromtuples(totuples(y)), fromlist(tolist(y)) and fromdict(todict(y)) reproduce every cell of y (as float) with sorted labels; fromtuples of an arbitrary list of tuples has the given value at each given label tuple (the last one if repeated) and NaN elsewhere; a list of values of another length than the labels is a ValueError, except that a single value is used for all labels.", "quantifier": "every numeric larry and every list of labelled values", "why_tests_cant": "round trips over all inputs, including partial grids and duplicates", "anchors": ["la/deflarry.py:larry.totuples", "la/deflarry.py:larry.fromtuples", "la/deflarry.py:larry.fromlist", "la/deflarry.py:larry.fromdict", "la/util/misc.py:fromlists"]}
{"id": "C27", "title": "sortaxis sorts labels and carries the data", "statement": "sortaxis(axis, reverse) returns a larry with the same cells whose labels along the chosen axes are sorted (descending if reverse); it is idempotent and does not depend on the initial order.", "quantifier": "every larry with sortable labels", "why_tests_cant": "all permutations of all axes", "anchors": ["la/deflarry.py:larry.sortaxis"]}
{"id": "C28", "title": "flipaxis reverses and is an involution", "statement": "flipaxis(axis) reverses labels and data together: all cells are unchanged, and applying it twice gives back the larry.", "quantifier": "every larry and axis", "why_tests_cant": "all shapes", "anchors": ["la/deflarry.py:larry.flipaxis"]}
{"id": "C29", "title": "Transpose and swapaxes", "statement": "y.T has cell (lk,...,l0) equal to y's cell (l0,...,lk), y.T.T == y; swapaxes(a, b) exchanges the two coordinates and is an involution.", "quantifier": "every larry, every pair of axes (negative too)", "why_tests_cant": "all dimensions", "anchors": ["la/deflarry.py:larry.T", "la/deflarry.py:larry.swapaxes"]}
{"id": "C30", "title": "insertaxis, squeeze and pull are inverse", "statement": "insertaxis(axis, name) adds a length-1 axis with label [name] at the position numpy uses, for every positive or negative axis; pull or (if no other length-1 axis) squeeze undoes it; squeeze removes exactly the length-1 axes and their labels.", "quantifier": "every larry, every legal axis", "why_tests_cant": "label and data positions are computed by different code (list.insert vs expand_dims) for every axis value", "anchors": ["la/deflarry.py:larry.insertaxis", "la/deflarry.py:larry.squeeze", "la/deflarry.py:larry.pull"]}
{"id": "C31", "title": "lag shifts data against labels", "statement": "y.lag(n, axis): with n>0 the result's labels are y's last len-n labels and the data at the label in position i+n is y's data at position i; with n<0 the mirror image; n=0 is a copy; if |n| is at least the length the axis becomes empty.", "quantifier": "every larry, integer lag and axis", "why_tests_cant": "all lags including those beyond the axis length", "anchors": ["la/deflarry.py:larry.lag"]}
{"id": "C32", "title": "cumsum and cumprod ignore NaN", "statement": "cumsum(axis) (cumprod) at each position is the sum (product) of the non-NaN elements up to and including it along the axis, except that positions holding NaN stay NaN; axis=None raises ValueError.", "quantifier": "every numeric larry and axis", "why_tests_cant": "all NaN patterns", "anchors": ["la/deflarry.py:larry.cumsum", "la/deflarry.py:larry.cumprod"]}
{"id": "C33", "title": "Reductions skip NaN and drop the axis label", "statement": "sum, prod, mean, median, var, std, min and max along an axis return a larry with that axis and its label removed and each cell the reduction of the non-NaN elements of that lane (NaN if there are none); any and all count NaN as true; with axis=None or a 1d larry a scalar; empty input gives the documented default.", "quantifier": "every numeric larry and axis", "why_tests_cant": "all shapes and NaN patterns, including empty ones", "anchors": ["la/deflarry.py:larry.__reduce", "la/deflarry.py:larry.prod", "la/deflarry.py:larry.sum", "la/deflarry.py:larry.median", "la/deflarry.py:larry.var", "la/deflarry.py:larry.std"]}
{"id": "C34", "title": "clip bounds the data", "statement": "clip(lo, hi) maps every non-NaN element to the nearest value in [lo, hi], keeps NaN and labels, raises ValueError if lo > hi.", "quantifier": "every larry and bounds", "why_tests_cant": "all values", "anchors": ["la/deflarry.py:larry.clip"]}
{"id": "C35", "title": "vacuum removes exactly the empty slices", "statement": "vacuum(axis) removes, along every axis not named by the argument (every axis for None), exactly the labels whose slice contains no finite value and keeps every other label and all data; no finite value is lost and a second vacuum changes nothing; a negative axis means the same as the axis it counts to from the end.", "quantifier": "every larry of every dimension, every axis argument (None, int, negative int, tuple)", "why_tests_cant": "all NaN patterns, dimensions and axis arguments", "anchors": ["la/deflarry.py:larry.vacuum"]}
{"id": "C36", "title": "cut_missing removes exactly the slices with too many missing values", "statement": "cut_missing(fraction, axis) keeps along each other axis exactly the labels for which more than (1 - fraction) of the slice is finite; default axis=None cuts along all axes.", "quantifier": "every larry, fraction and axis", "why_tests_cant": "all NaN patterns", "anchors": ["la/deflarry.py:larry.cut_missing"]}
{"id": "C37", "title": "push fills forward at most n periods", "statement": "push(n, axis) replaces a missing element by the most recent finite element along the axis if that is at most n positions back, leaves it missing otherwise, and never changes finite elements.", "quantifier": "every array, window and axis", "why_tests_cant": "all missing patterns and windows", "anchors": ["la/deflarry.py:larry.push", "la/farray/normalize.py:push"]}
{"id": "C38", "title": "nan_replace and ismissing", "statement": "nan_replace(v) replaces exactly the NaNs; ismissing marks exactly NaN (float), '' (str), None (object), and nothing for int and bool; nans(shape, dtype) is all missing, or raises TypeError for dtypes without a marker.", "quantifier": "every array of every dtype", "why_tests_cant": "all dtypes and values", "anchors": ["la/deflarry.py:larry.nan_replace", "la/missing.py:ismissing", "la/missing.py:nans", "la/missing.py:missing_marker"]}
{"id": "C39", "title": "movingsum is a windowed NaN-aware sum", "statement": "movingsum(arr, window, skip, axis): element i is NaN for i < window+skip-1 and otherwise the sum of the non-missing elements of positions i+1-window-skip .. i-skip, NaN if all are missing, times window/count if norm; movingsum_forward is its mirror image.", "quantifier": "every array, window >= 1, skip >= 0, axis", "why_tests_cant": "all window/skip/length combinations and missing patterns; implemented by differences of cumulative sums", "anchors": ["la/farray/move.py:movingsum", "la/farray/move.py:movingsum_forward"]}
{"id": "C40", "title": "Moving window functions: loop and strides methods agree", "statement": "move_func with method 'loop' and with method 'strides' give the same result: NaN for the first window-1 positions and func of the trailing window elsewhere, for any function of the window; both reject window < 1 and window > length with ValueError.", "quantifier": "every 1d/2d/3d array, axis, window, and function reducing an axis", "why_tests_cant": "two implementations over all shapes and axes", "anchors": ["la/farray/move.py:move_func_loop", "la/farray/move.py:move_func_strides"]}
{"id": "C41", "title": "ranking is an order-preserving normalization", "statement": "ranking(axis, '-1,1') maps the non-NaN elements of each lane into [-1, 1], strictly order preserving, equal for ties, antisymmetric under negation, with 0 if there is only one, NaN stays NaN; '0,N-1' is the affine image with range [0, N-1].", "quantifier": "every lane, tie pattern and NaN pattern", "why_tests_cant": "all value orders and NaN patterns", "anchors": ["la/farray/normalize.py:ranking"]}
{"id": "C42", "title": "lastrank is the last element of ranking", "statement": "lastrank(x) (decay=0) equals the last element of ranking(x, norm='-1,1') along the axis, as its documentation promises.", "quantifier": "every lane with any NaN, infinity and tie pattern", "why_tests_cant": "two algorithms over all inputs", "anchors": ["la/farray/normalize.py:lastrank", "la/farray/normalize.py:ranking"]}
{"id": "C43", "title": "quantile bins are ordered and balanced", "statement": "quantile(q) assigns each finite element of a lane to one of q bins, monotone in rank, mapped evenly onto [-1, 1]; NaN stays NaN; q < 1 or q > length raises ValueError.", "quantifier": "every lane and q", "why_tests_cant": "all lengths and q", "anchors": ["la/farray/normalize.py:quantile", "la/farray/normalize.py:_quantileraw1d"]}
{"id": "C44", "title": "Group statistics act within groups", "statement": "group_mean/group_median/group_ranking(group, axis): each element is replaced by the NaN-aware statistic over the elements of its own lane whose group is the same; elements whose group is None become NaN; group order is irrelevant; labels must be a subset of the group's labels or IndexError is raised.", "quantifier": "every larry, group larry and axis", "why_tests_cant": "all groupings", "anchors": ["la/farray/group.py", "la/deflarry.py:larry._group_align"]}
{"id": "C45", "title": "cross_validation partitions the index", "statement": "cross_validation(n, kfold) yields kfold pairs; the test sets are non-empty, disjoint, cover 0..n-1, each training set is the complement of its test set, fold sizes are n//kfold except the last which takes the remainder; invalid n/kfold raise ValueError.", "quantifier": "every n, kfold and every shuffle", "why_tests_cant": "all n, k and permutations", "anchors": ["la/util/resample.py:cross_validation"]}
{"id": "C46", "title": "bootstrap yields training samples and their complement", "statement": "bootstrap(n, nboot) yields exactly nboot pairs; train has n indices in 0..n-1, test is the non-empty set of indices not in train; draws whose complement is empty are redrawn.", "quantifier": "every n, nboot and every sequence of random draws", "why_tests_cant": "all random histories", "anchors": ["la/util/resample.py:bootstrap"]}
{"id": "C47", "title": "Archive behaves like a dictionary of larrys", "statement": "For an archive, after any sequence of io[key]=lar, del io[key], clear, the keys are exactly those stored and not deleted and loading each yields the last larry stored (labels and data); missing keys raise KeyError; non-str keys and non-larry values raise TypeError.", "quantifier": "every sequence of archive operations over flat keys and larrys with archivable labels", "why_tests_cant": "all histories", "anchors": ["la/io.py:IO", "la/io.py:save", "la/io.py:load", "la/io.py:delete"]}
{"id": "C48", "title": "Archived labels round trip", "statement": "Saving and loading reproduces each axis label exactly for labels of one type among int, str, date, time and datetime (naive), and rejects mixed types with TypeError.", "quantifier": "every label list", "why_tests_cant": "all labels; time zones and tuple labels are corner cases", "anchors": ["la/io.py:_list2array", "la/io.py:_load_label"]}
{"id": "C49", "title": "Overwriting a key is all or nothing", "statement": "If io[key] = lar fails or is interrupted, io[key] still holds the old larry or already holds the new one.", "quantifier": "every archive, larry and every failure or crash point inside the assignment", "why_tests_cant": "all crash points", "anchors": ["la/io.py:IO.__setitem__", "la/io.py:save"]}
{"id": "C50", "title": "repack never loses the archive", "statement": "repack(file) leaves all larrys unchanged; at every crash point inside it the complete content is still in some file on disk.", "quantifier": "every archive content and every crash point between file system operations", "why_tests_cant": "all crash points", "anchors": ["la/io.py:repack"]}
{"id": "C51", "title": "stack builds a 3d larry from 2d ones", "statement": "stack(mode, **lars) has sorted names as first label and the union/intersection of row and column labels; cell (name, r, c) is the named larry's cell (r, c) or NaN.", "quantifier": "every non-empty set of named 2d float larrys", "why_tests_cant": "all overlap patterns", "anchors": ["la/flarry.py:stack"]}
{"id": "C52", "title": "panel reshapes without moving labels", "statement": "panel(y) of a 3d larry has cell ((l1,l2), l0) equal to y's cell (l0,l1,l2).", "quantifier": "every 3d larry", "why_tests_cant": "all shapes; uses transpose and Fortran-order reshape", "anchors": ["la/flarry.py:panel"]}
{"id": "C53", "title": "cov is a symmetric pairwise-complete covariance", "statement": "cov(y) of a 2d larry labels rows and columns with y's row labels, is symmetric, has nonnegative diagonal, each entry is the mean of products over columns where both rows are present, and it raises ValueError if any pair has fewer than two common observations.", "quantifier": "every 2d float larry", "why_tests_cant": "all missing patterns", "anchors": ["la/flarry.py:cov", "la/farray/misc.py:covMissing"]}
{"id": "C54", "title": "sortby orders a 2d larry by one row or column", "statement": "sortby(y, element, axis, reverse) permutes the opposite axis so that the selected row/column is ascending (descending), with all cells unchanged.", "quantifier": "every 2d larry", "why_tests_cant": "all orders", "anchors": ["la/flarry.py:sortby"]}
{"id": "C55", "title": "Array creation shortcuts", "statement": "ones, zeros and lrange(shape or label) give well formed larrys of the requested shape; lrange holds start + step*k at the k-th element in C order; ValueError if neither shape nor label is given.", "quantifier": "every shape, label, start and nonzero step", "why_tests_cant": "all shapes", "anchors": ["la/flarry.py:lrange", "la/flarry.py:ones", "la/flarry.py:zeros", "la/flarry.py:empty"]}
{"id": "C56", "title": "demean centres every lane", "statement": "demean(axis) subtracts from each non-NaN element the mean of the non-NaN elements of its lane (of the whole array for axis=None): the result has zero NaN-mean in every lane with data, NaNs stay; demedian likewise has zero median.", "quantifier": "every float array and axis", "why_tests_cant": "all NaN patterns and shapes", "anchors": ["la/farray/normalize.py:demean", "la/farray/normalize.py:demedian"]}
{"id": "C57", "title": "isaligned decides label equality", "statement": "isaligned(y1, y2, axis) is True iff the labels along axis (all axes for None) are equal in content and order.", "quantifier": "every pair of larrys", "why_tests_cant": "all pairs", "anchors": ["la/flarry.py:isaligned"]}
{"id": "C58", "title": "shuffle permutes the data and only the data", "statement": "shuffle(axis) permutes whole slices along the axis and leaves labels unchanged; shufflelabel permutes labels within the axis and leaves data unchanged; with axis=None every axis.", "quantifier": "every larry, axis and every random permutation", "why_tests_cant": "all permutations", "anchors": ["la/deflarry.py:larry.shuffle", "la/deflarry.py:larry.shufflelabel", "la/farray/misc.py:shuffle"]}
{"id": "C59", "title": "split separates training and test data", "statement": "split(y, train, test, axis) returns the two sub-larrys; with the index pairs of cross_validation every label along the axis occurs in exactly one of the two and keeps its data.", "quantifier": "every larry, fold count and shuffle", "why_tests_cant": "all folds", "anchors": ["la/util/resample.py:split", "la/util/resample.py:cross_validation", "la/deflarry.py:larry.take"]}
{"id": "C60", "title": "Binary operations with arrays keep integrity", "statement": "y op a for a numpy array a yields a well formed larry with y's labels or raises.", "quantifier": "every larry and array, including arrays that broadcast to a bigger shape", "why_tests_cant": "all broadcast combinations", "anchors": ["la/deflarry.py:larry.__add__"]}
{"id": "C61", "title": "Reflected operators", "statement": "v op y for a scalar v (or v / y for an array) yields a well formed larry with y's labels whose cells are v op y[ls], in this operand order.", "quantifier": "every larry, every scalar and arithmetic operator", "why_tests_cant": "all dtypes and values", "anchors": ["la/deflarry.py:larry.__rsub__", "la/deflarry.py:larry.__rdiv__", "la/deflarry.py:larry.__radd__"]}
{"id": "C62", "title": "Elementwise methods keep labels", "statement": "-y, abs, sign, isnan, isfinite, isinf and invert return a well formed larry with the same labels where every cell is the function of the cell of y; -(-y) and invert(invert(y)) are y.", "quantifier": "every larry of every dtype", "why_tests_cant": "all values including NaN and infinities", "anchors": ["la/deflarry.py:larry.__neg__", "la/deflarry.py:larry.sign", "la/deflarry.py:larry.isnan", "la/deflarry.py:larry.invert"]}
{"id": "C63", "title": "Index assignment writes exactly the selected cells", "statement": "y[index] = v stores v, converted to the dtype of y, in exactly the cells that y[index] selects and leaves every other cell, the labels and the dtype alone; a larry v must have the labels of y[index] and its cells go to the cells with the same labels; a boolean larry as index must be aligned with y and selects its True cells.", "quantifier": "every larry, every supported index and every value", "why_tests_cant": "all shapes, index combinations and label alignments; an aligned-by-position write differs from the aligned-by-label write only when labels are permuted", "anchors": ["la/deflarry.py:larry.__setitem__"]}
{"id": "C64", "title": "zscore standardises every lane", "statement": "zscore(axis) subtracts from each element the mean of the non-NaN elements of its lane and divides by their standard deviation: a lane with finite data and non-zero variance gets mean 0 and variance 1, NaNs stay and labels are kept.", "quantifier": "every float or int larry and axis", "why_tests_cant": "all NaN patterns, shapes and values", "anchors": ["la/farray/normalize.py:zscore", "la/deflarry.py:larry.zscore"]}
{"id": "C65", "title": "larry.move_func hands its key word arguments to the function", "statement": "y.move_func(func, window, axis, method, **kwargs) is move_func(func, y.x, window, axis, method, **kwargs) with the labels of y: func gets the key word arguments of the call.", "quantifier": "every larry, function, window, axis, method and key word arguments", "why_tests_cant": "the method accepts arbitrary key words for arbitrary functions; the tests never pass one", "anchors": ["la/deflarry.py:larry.move_func", "la/farray/move.py:move_func"]}
{"id": "C66", "title": "keep_x keeps exactly the data satisfying the condition", "statement": "y.keep_x(op, value, vacuum) keeps every element x with x op value and replaces every other element by NaN; with vacuum=True (2d larrys only) the rows and columns that are then all NaN are removed, and no other; labels stay with their data and y is not changed.", "quantifier": "every larry of a numerical dtype, comparison and number", "why_tests_cant": "all values, NaN patterns and infinities; the tests never call keep_x", "anchors": ["la/deflarry.py:larry.keep_x"]}
{"id": "C67", "title": "lastrank with decay is a weighted rank", "statement": "y.lastrank(axis, decay) with decay > 0 is, for every lane, the mean of the signs of the last element against the other non-NaN elements, weighted with exp(-decay * distance to the last element): it lies between -1 and 1, is 1 (-1) exactly if the last element is greater (less) than all others, and elements nearer the last one weigh more; a negative decay is a ValueError.", "quantifier": "every float or int larry without infinities, axis and decay", "why_tests_cant": "all data, NaN patterns and decays; the tests check one example", "anchors": ["la/farray/normalize.py:lastrank", "la/deflarry.py:larry.lastrank"]}
{"id": "C68", "title": "correlation is pairwise complete, symmetric and bounded", "statement": "correlation(arr1, arr2, axis) is for every lane the correlation of the pairs in which neither element is NaN; it does not depend on the order of the arguments, lies between -1 and 1, and is 1 for equal lanes with variance; the fast path for arrays without NaN and the path with NaN agree.", "quantifier": "every pair of float or int arrays of one shape without infinities, and axis", "why_tests_cant": "all data and NaN patterns, for the three code paths", "anchors": ["la/farray/misc.py:correlation"]}
{"id": "C69", "title": "geometric_mean is the exponential of the mean logarithm", "statement": "y.geometric_mean(axis, check) is for every lane the exponential of the mean of the logarithms of the non-NaN elements, NaN for a lane of NaNs, with the labels of the other axes; if check is true an element that is zero or less raises ValueError.", "quantifier": "every float or int larry and axis", "why_tests_cant": "all shapes, values and NaN patterns", "anchors": ["la/farray/misc.py:geometric_mean", "la/deflarry.py:larry.geometric_mean"]}
{"id": "C70", "title": "log, exp, sqrt and power act on every element and keep labels", "statement": "log, exp, sqrt and power replace every element by the function of it and keep the labels; an int larry to a non-negative int power stays int. log, exp and sqrt of strings raise TypeError.", "quantifier": "every numerical larry; every larry of strings", "why_tests_cant": "all shapes and values", "anchors": ["la/deflarry.py:larry.log", "la/deflarry.py:larry.exp", "la/deflarry.py:larry.sqrt", "la/deflarry.py:larry.power"]}
{"id": "C71", "title": "tocsv followed by fromcsv keeps data and labels", "statement": "For every larry of numbers, larry.fromcsv of the file written by y.tocsv holds every element of y, as a float, under the text of its labels, whatever characters (delimiters, quotes, line breaks) the labels contain; labels are sorted text.", "quantifier": "every larry of numbers, every legal delimiter, every label text", "why_tests_cant": "the test writes one small larry with plain labels; quoting has to be right for all texts", "anchors": ["la/deflarry.py:larry.tocsv", "la/deflarry.py:larry.fromcsv", "la/deflarry.py:larry.totuples", "la/deflarry.py:larry.fromtuples", "la/util/misc.py:fromlists"]}
{"id": "C72", "title": "fromcsv reads a table of labelled values", "statement": "fromcsv of a file whose rows, after skipping skiprows rows, have one length of at least two fields gives the larry that tabulates the rows: the last field as a float at the labels of the other fields; an empty label field is the label ''; a row whose value is missing or not a number is a ValueError.", "quantifier": "every list of rows of fields and skiprows", "why_tests_cant": "all files and row contents; no test reads a file not written by tocsv", "anchors": ["la/deflarry.py:larry.fromcsv", "la/util/misc.py:fromlists"]}
{"id": "C73", "title": "tofile writes a table that can be split again", "statement": "tofile writes a 1d larry as lines 'label delimiter value' and a 2d larry as a header line of the column labels after an empty field followed by one line per row with its label and values: splitting the file into lines and the lines at the delimiter gives back the text of all labels and values. Other dimensions are a ValueError.", "quantifier": "every 1d and 2d larry and delimiter", "why_tests_cant": "there is no test of tofile", "anchors": ["la/deflarry.py:larry.tofile"]}
{"id": "C74", "title": "Sharing is invisible unless something is changed in place", "statement": "A program of calls on larrys in memory, where results may be views and share lists of labels, ends with the larrys (data, dtype and labels) that the same calls compute when every call copies everything, and raises the same exception where that raises, provided no call works in place. Calls that work in place may be added when no call returning views is used and the larrys share nothing at the start; then no two larrys ever share anything. merge, and add and its like with missone or misstwo, may write to their arguments; what they return is still the value computed, for merge with any sharing and for the others when the two arguments share nothing.", "quantifier": "every program of modelled calls, every memory with any sharing, all valid larrys in it", "why_tests_cant": "needs a relation between memory and values kept by every call in every sharing state", "anchors": ["la/deflarry.py:larry.__getitem__", "la/deflarry.py:larry.squeeze", "la/deflarry.py:larry.copylabel", "la/deflarry.py:larry.morph", "la/flarry.py:align", "la/deflarry.py:larry.lag"]}
{"id": "C75", "title": "Archives with larrys in groups are dictionaries", "statement": "An archive accessed with keys that contain slashes (io['a/b'] = y, io['a/b'], del io['a/b'], keys, clear) behaves as a dictionary from keys to larrys: a key maps to the larry assigned to it last, and assigning, deleting and clearing affect no other key.", "quantifier": "every set of keys with any number of groups, every sequence of assignments, deletions and clears with them, all storable larrys", "why_tests_cant": "needs an invariant relating the tree of groups in the file to the dictionary after every sequence of operations", "anchors": ["la/io.py:IO.__setitem__", "la/io.py:IO.__getitem__", "la/io.py:IO.__delitem__", "la/io.py:IO.keys", "la/io.py:IO.clear", "la/io.py:save", "la/io.py:load"]}
{"id": "C76", "title": "quotes collects the histories of all tickers", "statement": "quotes(tickers, ...) returns a 3d float larry: tickers by items (open, close, high, low, volume, and adjclose if not adjusted) by dates in ascending order. Every value of the pages of the tickers is found at its ticker, item and date; NaN stands where a ticker has no entry for a date. With adjust the close is the adjusted close and open, high and low are scaled by the same factor, so proportions within a day are kept; volume is unchanged.", "quantifier": "every sequence of tickers, every page text (dates in any order, lines that are not entries), every implementation of float, int and date", "why_tests_cant": "pages come from the web and differ in dates, so the merged table has unboundedly many shapes", "anchors": ["la/data/yahoo.py:quotes", "la/external/matplotlib.py:parse_yahoo_historical", "la/external/matplotlib.py:quotes_historical_yahoo", "la/deflarry.py:larry.merge", "la/deflarry.py:larry.sortaxis"]}
{"id": "C77", "title": "assert_iscopy and assert_isview tell copies from views", "statement": "assert_iscopy(a, b) passes exactly when the larrys have no shared references, and assert_isview(a, b) passes exactly when there are only references. In particular the result of every method that returns a copy passes assert_iscopy against every larry that existed before.", "quantifier": "all states of memory, all pairs of larrys in it, all calls of the memory model", "why_tests_cant": "the test-suite trusts these two checks; a check that misses a shared list or complains about disjoint views is not noticed by the tests it decides", "anchors": ["la/util/testing.py:211-227", "la/util/testing.py:229-246"]}
{"id": "C78", "title": "Tables are drawn with aligned columns and wrapped text fits", "statement": "indent draws every table so that each column is as wide as its longest line, each entry stands in the field of its column with the justification asked for, and the bars are as long as the rows; IO.__repr__ shows every larry of the archive in such a table, by name. wrap_always cuts into pieces of the width, wrap_onspace only turns spaces into line breaks and leaves no line with a space too long, wrap_onspace_strict enforces the width.", "quantifier": "all tables of strings, all styles, all wrapping functions, all archives reachable by dictionary operations with flat keys, all texts and widths", "why_tests_cant": "the code has no tests; whether columns line up depends on the number of rows and columns and on every entry", "anchors": ["la/external/prettytable.py:12-50", "la/external/prettytable.py:54-81", "la/io.py:205-218"]}
{"id": "C79", "title": "unique returns the sorted elements, their first places and the way back", "statement": "unique returns the elements of the larry in sorted order, each once; with return_index the flat indices of their first occurrences; with return_inverse the indices into the result that give the flattened data back.", "quantifier": "all larrys of any shape and dtype other than object, all combinations of the flags, all sorting functions with the guarantees of numpy's", "why_tests_cant": "the function has no tests beyond the docstring; ties, NaN and the two kinds of sort interact with the order of the elements", "anchors": ["la/flarry.py:1272-1337"]}
{"id": "C80", "title": "assert_larry_equal passes exactly for equal larrys", "statement": "assert_larry_equal passes if and only if both larrys have the same labels, the same elements (to within a fixed tolerance if one of them holds floats, NaN and infinities at the same places) and, if asked for, the same dtype; the headings of the AssertionError name what differs. With original it also passes only if actual shares nothing with original. Scalars of different value or type raise AssertionError.", "quantifier": "all larrys in memory of float, int, bool and string dtype and any shape, all scalars, all flags", "why_tests_cant": "it is the check that the tests themselves rely on; a gap in it would hide in every test", "anchors": ["la/util/testing.py:10-209"]}
{"id": "C81", "title": "The text of a larry tells larrys apart", "statement": "Every larry has a text (repr): for each axis its name and below it the labels in order, each indented on a line, then x and the array; of an axis with more than ten labels only the first and the last three are shown around dots. Two larrys with the same text have the same labels and arrays with the same text.", "quantifier": "all larrys of any shape and labels, all functions for the texts of labels and arrays", "why_tests_cant": "no test looks at the text; whether two different larrys can look the same is a question about all pairs of larrys", "anchors": ["la/deflarry.py:4983-5006"]}
{"id": "C82", "title": "The moving window statistics see only their window", "statement": "move_sum, move_mean, move_std, move_min and move_max give a larry with the same labels whose element is, in every lane along the axis, the sum, mean, standard deviation, minimum or maximum of the numbers other than NaN in the window of the given length that ends there, and NaN if there is none or fewer elements than the window came before. A window shorter than 1 or longer than the axis, and an axis that does not exist, raise ValueError.", "quantifier": "all numerical larrys, all window lengths and axes", "why_tests_cant": "the tests have a few small arrays; the running sums carry what left the window along, which shows only for special values", "anchors": ["la/deflarry.py:2705-2880"]}
{"id": "C83", "title": "Changing the dtype keeps labels and, where it can, values", "statement": "astype of a larry of floats, ints or bools has the same labels and in each cell the same number: as a float; as an int without its fraction; as a bool that is false exactly for zero. Its own dtype gives the larry itself; ints survive the way to floats and back, bools the way to ints or floats and back, floats the way to ints and back exactly if they are whole numbers. The dtype argument of the constructor does what astype does to the constructed larry.", "quantifier": "all larrys of floats, ints and bools of any shape, all dtypes", "why_tests_cant": "the tests convert one or two arrays; sign and fraction of every number and all ways between dtypes are beyond them", "anchors": ["la/deflarry.py:4155-4195", "la/deflarry.py:96-107"]}
{"id": "C84", "title": "True division", "statement": "y.__truediv__(z) and y.__rtruediv__(z) hold, at every label of the result, the quotient of the two elements as a float, whatever the dtypes.", "quantifier": "every larry and every larry or scalar, in both versions of Python that are supported", "why_tests_cant": "all dtypes and both versions of Python", "anchors": ["la/deflarry.py:larry.__truediv__", "la/deflarry.py:larry.__rtruediv__"]}
{"id": "C85", "title": "Indexing an archived larry", "statement": "Indexing the value of an archive (a lara) gives the larry, or the element, that the same index gives with the archived larry; assigning through an index changes exactly the selected cells of the archived larry; [:] converts a lara into the larry.", "quantifier": "every archive, every larry in it, every index and every value assigned", "why_tests_cant": "archives, larrys and index tuples are unbounded in number; the tests read one larry with one index", "anchors": ["la/io.py:lara.__getitem__", "la/io.py:lara.__setitem__", "la/io.py:lara.__init__", "la/io.py:IO.__getitem__"]}
{"id": "C86", "title": "noreference and nocopy tell references from copies", "statement": "noreference(larry1, larry2) is true exactly if the two larrys share no references; nocopy(larry1, larry2) is true exactly if they consist of references to the same data and labels; both raise ValueError exactly if the numbers of axes differ.", "quantifier": "every state of memory, every two larrys in it", "why_tests_cant": "the tests of the library rely on these checks and only ever apply them to a handful of larrys; which larrys share memory depends on the calls that made them", "anchors": ["la/util/testing.py:noreference", "la/util/testing.py:nocopy"]}
{"id": "C87", "title": "Data and labels as copies or references", "statement": "getx, copyx, getlabel and copylabel return copies: equal values in new memory, so that writing to them changes no larry. getx(copy=False), A and getlabel(copy=False) return the array or list of the larry itself, so that writing to it writes to the larry. getlabel raises IndexError exactly if there is no such axis.", "quantifier": "every state of memory, every larry, every axis, every array written", "why_tests_cant": "the tests look at one larry; that nothing else in memory is touched cannot be seen from a test", "anchors": ["la/deflarry.py:larry.getx", "la/deflarry.py:larry.copyx", "la/deflarry.py:larry.A", "la/deflarry.py:larry.getlabel", "la/deflarry.py:larry.copylabel"]}
{"id": "C88", "title": "Assigning an array", "statement": "y[index] = x and y.lix[index] = x for an array x broadcast x to the shape of the selection: every selected cell, found by its labels, gets its element of the array converted to the type of the larry; all other cells, the type and all labels stay. With a bool larry as index the k-th true cell, in order, gets the k-th element. The assignment succeeds if the shape of the array broadcasts to the selection and raises ValueError otherwise; an index that does not exist or a bool larry with other labels raises IndexError.", "quantifier": "every larry, every index (integers, slices, at most one list) and every array", "why_tests_cant": "the tests assign scalars and larrys of the same shape; the combinations of index and array shape are unbounded", "anchors": ["la/deflarry.py:larry.__setitem__", "la/deflarry.py:Lix.__setitem__"]}
{"id": "C89", "title": "Computing and selecting commute", "statement": "For a part of a larry, some labels of one axis in some order, every elementwise method gives the part of what it gives for the whole larry; so does every method that works lane by lane along another axis (cumulative sums, push, ranking, quantile, demean, demedian, zscore, moving sums and means, group methods, lag, take, flipaxis, sortaxis, morph) and every reduction along another axis. take, keep_label, morph, flipaxis and sortaxis select parts, so taking before or after computing gives the same larry.", "quantifier": "every larry, every axis, all labels of the part in any order, every method of the three kinds", "why_tests_cant": "tests check single methods on single arrays, never two ways to the same result for all selections", "anchors": ["la/deflarry.py:larry.take", "la/deflarry.py:larry.keep_label", "la/deflarry.py:larry.morph", "la/deflarry.py:larry.__neg__", "la/deflarry.py:larry.ranking", "la/deflarry.py:larry.sum"]}
{"id": "C90", "title": "Labels are ordered and sorted as in Python", "statement": "Labels are compared as Python compares them: ints by value, strings by their first different character, dates and times chronologically, tuples by their first different elements, a prefix before its continuations. sorted gives the elements in this order and raises TypeError exactly when two different elements cannot be ordered (different types, or a time with and one without an offset). The order is total and transitive, so sorting is unique.", "quantifier": "all labels without UTC offsets and all lists of them", "why_tests_cant": "the order is used by every sorted union and intersection of labels; tests compare a few strings and ints", "anchors": ["la/flabel.py:listmap", "la/flabel.py:list2index", "la/deflarry.py:larry.sortaxis", "la/deflarry.py:larry.morph"]}
{"id": "C91", "title": "The order of the labels does not matter where it should not", "statement": "If two larrys hold the same labelled values and differ only in the order of the labels along one axis (as after flipaxis, sortaxis, take or morph), then sum, prod, mean, median, std, var, min, max, any, all and geometric_mean along that axis or over the whole larry give the same result or the same error for both, and demean, demedian, zscore and ranking give every label the same value.", "quantifier": "all valid larrys, all permutations of the labels of an axis, all arguments", "why_tests_cant": "tests fix one order of the labels per example; a dependence on position (a first-element shortcut, unstable tie breaking in ranking) shows only for other orders", "anchors": ["la/deflarry.py:larry.sum", "la/deflarry.py:larry.median", "la/deflarry.py:larry.ranking", "la/deflarry.py:larry.zscore", "la/deflarry.py:larry.sortaxis", "la/farray/normalize.py:ranking"]}
{"id": "C92", "title": "maxlabel and minlabel give the extreme labels", "statement": "maxlabel(axis) and minlabel(axis) give a label of the axis (of any axis, without the argument) such that no label that can be ordered with it comes after (before) it in Python's order. They succeed if there are labels and the labels can be ordered; a larry or axis without labels raises ValueError, a missing axis IndexError.", "quantifier": "all larrys and axes; the order for labels without UTC offsets", "why_tests_cant": "tests take the extremes of a few strings or ints; the order matters for tuples, dates and mixed labels", "anchors": ["la/deflarry.py:larry.maxlabel", "la/deflarry.py:larry.minlabel"]}
{"id": "C93", "title": "A summary of summaries is the summary of the larry", "statement": "For a larry with at least two axes and one element, the sum, max, min, any or all of the larry of sums, maxima, minima, anys or alls along any axis is the sum, max, min, any or all of the whole larry, with missing values left out at both levels; for sum unless both infinities occur. The mean of the means is the mean if all values are finite.", "quantifier": "all valid larrys without an empty axis, all axes", "why_tests_cant": "the two computations go through different code (a reduction along an axis of an nd array and one over the flattened array) and meet only in the values; tests compare each with fixed numbers", "anchors": ["la/deflarry.py:larry.sum", "la/deflarry.py:larry.mean", "la/deflarry.py:larry.max", "la/deflarry.py:larry.min", "la/deflarry.py:larry.any", "la/deflarry.py:larry.all", "la/deflarry.py:larry.__reduce"]}
{"id": "C94", "title": "Other labels change nothing but the labels", "statement": "Replace the labels of larrys, and the labels among the arguments of calls, by others in a one-to-one way that goes into tuples and keeps the order of labels that can be ordered. Every program of calls that neither makes labels of its own nor takes labels apart then gives the same data with the replaced labels, or the same exception.", "quantifier": "all one-to-one changes of labels that keep their order, all sequences of calls of the modelled methods and functions (except shufflelabel, unflatten, stack, fromcsv and default labels), all larrys", "why_tests_cant": "it says of each method that it uses labels only by comparing them; a test with particular labels cannot tell a method that looks at the type or the text of a label from one that does not", "anchors": ["la/deflarry.py:larry", "la/flarry.py:align", "la/flarry.py:binaryop", "la/flabel.py:listmap", "la/flabel.py:list2index", "la/util/misc.py:fromlists"]}
{"id": "C95", "title": "The axes are interchangeable", "statement": "Let two larrys differ only in the order of their axes. A method that works cell by cell or along one axis, called with the same axis as it is numbered in each, fails for both or gives results that differ only in the order of their axes. A reduction along the axis leaves the remaining axes in the same relative order, summaries of all cells are equal, and calling a method before transposing is the same as calling it after.", "quantifier": "all larrys of any number of axes, all orders of their axes, all axes given from either end, all modelled methods that work cell by cell, along one axis, or over all cells", "why_tests_cant": "tests use one or two axes and a few shapes; code that treats the last axis of a three-dimensional larry differently, or mixes up the number of an axis before and after another is dropped, is only seen for particular shapes", "anchors": ["la/deflarry.py:larry", "la/deflarry.py:larry.T", "la/deflarry.py:larry.swapaxes", "la/farray/normalize.py:ranking", "la/farray/normalize.py:zscore", "la/farray/normalize.py:lastrank", "la/farray/group.py:group_ranking"]}
{"id": "C96", "title": "Statistics follow a change of origin, of unit or of sign, and ranks follow no increasing change", "statement": "For a larry of floats: adding a number to every cell adds it to means, medians, extremes, moving means and means and medians of groups, and changes neither variances and standard deviations nor demean, demedian and zscore. Multiplying by a number other than 0 multiplies sums, means, demean, moving sums and means and group means by it, and variances by its square; if the number is positive also medians, extremes, demedian and standard deviations, and zscore does not change. Negating exchanges the largest and the smallest, also in moving windows. Any increasing change of the numbers changes extremes in the same way and does not change ranking, group_ranking and lastrank. Cells that are NaN are missing before and after.", "quantifier": "all valid float larrys (any shape, also empty, with NaN and infinities), all axes, all numbers added or multiplied by, all increasing functions, all windows, groups, norms, ddof and decays", "why_tests_cant": "metamorphic relations between two calls over all data; a statistic that treats NaN as 0, divides by the length instead of the count, or compares with a fixed number passes tests on small positive data and breaks the relation", "anchors": ["la/deflarry.py:larry.mean", "la/deflarry.py:larry.median", "la/deflarry.py:larry.std", "la/deflarry.py:larry.var", "la/deflarry.py:larry.demean", "la/deflarry.py:larry.zscore", "la/deflarry.py:larry.ranking", "la/deflarry.py:larry.lastrank", "la/deflarry.py:larry.move_mean", "la/farray/normalize.py:zscore", "la/farray/normalize.py:ranking", "la/farray/group.py:group_mean"]}
{"id": "C97", "title": "The operators between larrys obey the laws of algebra", "statement": "y1 + y2 = y2 + y1 and y1 * y2 = y2 * y1; (y1 + y2) + y3 = y1 + (y2 + y3) and the same for *; y1 * (y2 + y3) = y1 * y2 + y1 * y3; y1 - y2 = y1 + (-y2); y + 0, y - 0, y * 1 and y / 1 are y; y - y is zero where y is finite. y1 < y2 is y2 > y1 and so for every comparison; y1 != y2 is ~(y1 == y2) and y1 >= y2 is ~(y1 < y2). & and | commute, associate, distribute over each other and satisfy De Morgan's laws; y & y and y | y are y for bool larrys. In every law the two sides have the same labels in the same order, the same dtype and the same data, whatever the alignment did on the way.", "quantifier": "all valid larrys y1, y2, y3 of any number of axes whose labels, on every axis, overlap, all dtypes for which the operators are defined", "why_tests_cant": "a law relates up to five aligned operations; an alignment that keeps the order of one operand, or drops labels of the wrong operand, is right for every single operation on equal labels and breaks the law only for overlapping labels in different orders", "anchors": ["la/deflarry.py:larry.__add__", "la/deflarry.py:larry.__sub__", "la/deflarry.py:larry.__mul__", "la/deflarry.py:larry.__and__", "la/deflarry.py:larry.__or__", "la/deflarry.py:larry.__invert__", "la/deflarry.py:larry.__lt__", "la/deflarry.py:larry.__ne__", "la/deflarry.py:larry.__align"]}
{"id": "C98", "title": "Type tests, random strings and the space of archives", "statement": "isint(x) is True exactly for integers, isfloat(x) exactly for floats, isscalar(x) for both and for nothing else (not for bool, complex or strings), isstring(x) for str and the NumPy string derived from it. A larry can be indexed, also through lix, by every scalar: y[v] is y[int(v)], other kinds raise IndexError. randstring(n) is a string of n letters and digits, and every such string can occur. IO.space is IO.freespace plus the storage of all datasets of the archive, each counted once at any depth.", "quantifier": "all scalar types of Python 2 and 3 and of NumPy, all larrys, all numbers as index, all sequences of random draws, all archives with nested groups", "why_tests_cant": "the tests list nine types; unsigned integers, which NumPy puts in another branch of its classes, are not among them; the recursion over nested groups needs every depth", "anchors": ["la/util/misc.py:isint", "la/util/misc.py:isfloat", "la/util/misc.py:isscalar", "la/util/misc.py:isstring", "la/util/misc.py:randstring", "la/deflarry.py:larry.__getitem__", "la/deflarry.py:Lix.__getitem__", "la/io.py:IO.freespace", "la/io.py:IO.space"]}
{"id": "C99", "title": "Normalising what is normalised", "statement": "For a larry without infinities, demean and demedian are idempotent, the one after the other gives what the other gives alone, zscore and ranking of a demeaned or demedianed larry are those of the larry; zscore is idempotent and what it returns is demeaned. The ranking of a ranking (norm '-1,1' or '0,N-1') is the ranking of the larry, for every norm, also with infinities.", "quantifier": "all valid larrys of numbers (without infinities except for ranking of rankings), all axes and None, every square root function that is homogeneous", "why_tests_cant": "tests call each method once on small arrays; that a method leaves its own results alone for all contents, with NaN anywhere, needs the algebra of means, medians and ranks", "anchors": ["la/farray/normalize.py:demean", "la/farray/normalize.py:demedian", "la/farray/normalize.py:zscore", "la/farray/normalize.py:ranking", "la/deflarry.py:larry.demean", "la/deflarry.py:larry.demedian", "la/deflarry.py:larry.zscore", "la/deflarry.py:larry.ranking"]}
{"id": "C100", "title": "Two calls in one", "statement": "Calls compose as their documentation suggests: morph after morph, take after take, lag after lag of the same sign, maplabel after maplabel are single calls; morphing back, sorting again, clipping to a wider range, replacing NaN again, squeezing again, merging a larry with itself and aligning what is aligned change nothing; keep_label conditions commute; flipping a sorted axis is sorting it in reverse; lagging there and back leaves the values at their labels; float larrys may be merged from the left or from the right.", "quantifier": "all valid larrys, all axes and arguments for which the calls succeed (dtypes with a missing marker for morph, a non-empty result for keep_label, float for three merges)", "why_tests_cant": "tests call a method once on a fixed larry; the laws relate results of several calls for all labels and contents", "anchors": ["la/deflarry.py:larry.morph", "la/deflarry.py:larry.take", "la/deflarry.py:larry.lag", "la/deflarry.py:larry.keep_label", "la/deflarry.py:larry.sortaxis", "la/deflarry.py:larry.flipaxis", "la/deflarry.py:larry.clip", "la/deflarry.py:larry.nan_replace", "la/deflarry.py:larry.merge", "la/deflarry.py:larry.squeeze", "la/deflarry.py:larry.maplabel", "la/flarry.py:align"]}
{"id": "C101", "title": "One result by different roads", "statement": "Where la offers several ways to the same result, they give the same result: get, indexing by positions and lix return the same element, and set and index assignment write the same one; take, keep_label, flipaxis and pull can be written as an index on that axis; take, keep_label, flipaxis and sortaxis can be written as a morph to the labels of the result; a left (right) join leaves one larry alone and is morph_like for the other; squeezing the only axis of length one is pulling its label; swapaxes(0, 1) of a 2d larry is T; nan_replace is assignment under the mask isnan; demean and demedian without axis subtract the mean and the median; any is the opposite of all of the inverse; max is the opposite of min of the negative.", "quantifier": "all valid larrys, all axes and arguments for which the calls succeed (a non-empty selection for take and keep_label, numeric larrys for the statistics, a dtype with a missing marker for the joins)", "why_tests_cant": "tests compare each method with an expected literal, never one method with another for all labels, axes and contents", "anchors": ["la/deflarry.py:larry.get", "la/deflarry.py:larry.set", "la/deflarry.py:larry.__getitem__", "la/deflarry.py:larry.__setitem__", "la/deflarry.py:larry.lix", "la/deflarry.py:larry.take", "la/deflarry.py:larry.keep_label", "la/deflarry.py:larry.flipaxis", "la/deflarry.py:larry.pull", "la/deflarry.py:larry.morph", "la/deflarry.py:larry.morph_like", "la/deflarry.py:larry.squeeze", "la/deflarry.py:larry.swapaxes", "la/deflarry.py:larry.nan_replace", "la/deflarry.py:larry.demean", "la/deflarry.py:larry.any", "la/deflarry.py:larry.max", "la/flarry.py:align"]}
{"id": "C102", "title": "Elements follow exact arithmetic and its limits", "statement": "The sum, difference, product and quotient of two elements of larrys is the limit of exact arithmetic with numbers approaching the elements (a zero divisor being approached from above), and NaN if there is no such limit or an operand is NaN; floor division rounds that quotient down; int larrys give exact ints, // rounding down and giving 0 for a zero divisor; a comparison holds if it holds in the limit, and none but != holds with NaN; set stores what the dtype prescribes: decimals dropped in an int larry, everything but zero, None and the empty string true in a bool larry, and it fails exactly if the dtype cannot hold the value.", "quantifier": "all valid larrys, all labels, all finite and infinite elements and NaN; int, bool and float operands", "why_tests_cant": "tests use a handful of finite numbers and NaN; infinities, zero divisors and mixed dtypes are hardly tried, and the limit is over all sequences of rationals", "anchors": ["la/deflarry.py:larry.__add__", "la/deflarry.py:larry.__sub__", "la/deflarry.py:larry.__mul__", "la/deflarry.py:larry.__div__", "la/deflarry.py:larry.__lt__", "la/deflarry.py:larry.__eq__", "la/deflarry.py:larry.set"]}
{"id": "C103", "title": "Positions and slices are those of Python", "statement": "Integer z means position z of an axis, or position z + n from the end for z < 0, and is refused outside -n..n-1; slice(start, stop, step) takes, in order, the positions of the axis reached from start in steps of step before stop (upwards or downwards, negative bounds counted from the end, bounds beyond the ends of the axis moved to them, missing bounds the ends), and is refused for step 0. Indexing any axis of a larry by such an integer or slice, and take with such integers, gives exactly the labels at these positions, with their elements.", "quantifier": "all valid larrys, axes, integers and slices, including negative, missing and too large bounds and steps", "why_tests_cant": "slices have three optional bounds of either sign; tests try two or three of the combinations, hardly any with a negative step", "anchors": ["la/deflarry.py:larry.__getitem__", "la/deflarry.py:larry.take"]}
{"id": "C104", "title": "A larry is a table with one typed element per combination of labels", "statement": "A larry is well formed iff it has an axis, its shape is that of its labels, no axis repeats a label, and it has one element of the type of its dtype for each combination of one label per axis. The array has these elements in the order of the combinations, the last axis running fastest. Elements that morph must cast (int or bool, when labels are added) keep their number; all others stay as they are.", "quantifier": "all larrys, dtypes and labels of any dimension", "why_tests_cant": "a correspondence over all shapes; tests look at single elements of small larrys", "anchors": ["la/deflarry.py:larry.__init__", "la/deflarry.py:larry.get", "la/deflarry.py:larry.morph"]}
{"id": "C105", "title": "Statistics lie within the data", "statement": "Where min, mean (or median) and max of a larry along an axis or of all its elements are taken, the mean lies between the extremes; it is missing only if there is no number, or if the extremes are opposite infinities. A variance (ddof at most 0) is never negative, is zero exactly if there is only one finite number, repeated, and is missing exactly if there is no number or an infinity. The moving mean of a larry without infinities lies between the moving min and the moving max of the same window, and is missing exactly where these are. With infinities the same holds for the moving median, which may also be missing between opposite infinities.", "quantifier": "all numeric larrys, axes and windows; extremes, mean, median and variance as three separate calls", "why_tests_cant": "relates the results of different calls on all data, infinities and missing numbers included", "anchors": ["la/deflarry.py:larry.min", "la/deflarry.py:larry.max", "la/deflarry.py:larry.mean", "la/deflarry.py:larry.median", "la/deflarry.py:larry.var", "la/deflarry.py:larry.move_mean"]}
{"id": "C106", "title": "Larger data have larger statistics", "statement": "If two larrys have the same labels and the same missing elements and every other element of the first is at most that of the second, then min and max along any axis (or of all elements), moving min and moving max of the first are nowhere greater than those of the second, and are missing at the same places. Without infinities the same holds for sum, mean, median, cumsum, the moving mean and the moving median; with infinities it does not (the sum of opposite infinities is missing).", "quantifier": "all pairs of numeric larrys in order, of equal or different dtype, all axes and windows", "why_tests_cant": "relates two runs on infinitely many pairs of inputs", "anchors": ["la/deflarry.py:larry.sum", "la/deflarry.py:larry.mean", "la/deflarry.py:larry.median", "la/deflarry.py:larry.min", "la/deflarry.py:larry.max", "la/deflarry.py:larry.cumsum", "la/deflarry.py:larry.move_mean", "la/deflarry.py:larry.move_median"]}
{"id": "C107", "title": "The statistics of a whole from those of two parts", "statement": "If two conditions split the labels of an axis (every label satisfies exactly one of them, and each is satisfied by some label: < and >=, <= and >, == and !=, in and not in), then keep_label with each gives two parts of a larry, and the sum along that axis, or of all elements, is the sum of the sums of the parts (for a larry without infinities), the min the smaller and the max the larger of those of the parts. A part whose elements are all missing does not count: its statistic is missing and the statistic of the whole is that of the other part. Merging the two parts gives back the larry with the labels of that axis sorted (int and bool as float).", "quantifier": "all numeric larrys with elements, all axes, all pairs of complementary conditions", "why_tests_cant": "relates three runs on infinitely many inputs and all ways to split an axis", "anchors": ["la/deflarry.py:larry.keep_label", "la/deflarry.py:larry.sum", "la/deflarry.py:larry.min", "la/deflarry.py:larry.max", "la/deflarry.py:larry.merge"]}
{"id": "C108", "title": "Windows as wide as the data and windows of one element", "statement": "A moving sum, mean, median, std, min, max or rank with a window as long as the axis holds, at the last label of the axis, the sum, mean, median, std, min, max or lastrank along that axis, and is missing at all other labels. With a window of one element the moving min, max and median give every element as a float, and so do the moving sum and mean of a larry without infinities. The last element of cumsum (cumprod) is the sum (product) along the axis, unless the last element is missing.", "quantifier": "all int and float larrys with elements, all axes, for the median all memory layouts and both methods; cumsum also for bool; cumprod where the product exists (C33: float larrys, or one axis)", "why_tests_cant": "relates two methods on infinitely many inputs", "anchors": ["la/deflarry.py:larry.move_sum", "la/deflarry.py:larry.move_mean", "la/deflarry.py:larry.move_median", "la/deflarry.py:larry.move_min", "la/deflarry.py:larry.move_max", "la/deflarry.py:larry.move_std", "la/deflarry.py:larry.move_ranking", "la/deflarry.py:larry.lastrank", "la/deflarry.py:larry.cumsum", "la/deflarry.py:larry.cumprod"]}
{"id": "C109", "title": "One group for all and every label its own group", "statement": "If all labels of an axis are in one group, group_mean and group_median hold at every label the mean and the median along the axis, and group_ranking is ranking. If every label is in a group of its own, group_mean and group_median give every element as a float, and group_ranking is zero where there is an element and missing elsewhere.", "quantifier": "all int and float larrys, all axes, all group larrys (strings or numbers, in any order, with further labels)", "why_tests_cant": "relates different functions on infinitely many inputs", "anchors": ["la/farray/group.py:group_mean", "la/farray/group.py:group_median", "la/farray/group.py:group_ranking", "la/deflarry.py:larry.group_mean", "la/deflarry.py:larry.group_median", "la/deflarry.py:larry.group_ranking"]}
{"id": "C110", "title": "Skipped elements of moving sums, steps of running totals", "statement": "movingsum(arr, window, skip=s) is movingsum(arr, window, skip=0) moved s places along the axis, with the first s places missing, so that lag of the unskipped result by s has the same elements as the skipped result at all labels that lag keeps. cumsum starts with the first element, is missing where the element is missing, and adds the next element from one label to the next where both labels have an element; cumprod multiplies in the same way.", "quantifier": "all int and float larrys (cumsum and cumprod: all larrys whose dtype has arithmetic), all axes, all windows and skips that fit, norm or not", "why_tests_cant": "relates calls with different arguments on infinitely many inputs", "anchors": ["la/farray/move.py:movingsum", "la/deflarry.py:larry.lag", "la/deflarry.py:larry.cumsum", "la/deflarry.py:larry.cumprod"]}
{"id": "C111", "title": "Names of groups and elements of other groups do not matter", "statement": "Two group larrys that put the same labels together, and leave the same labels without a group, give the same group_mean, group_median and group_ranking, whether the groups are called by strings or by numbers. If two larrys have the same elements at the labels of one group, their group_mean, group_median and group_ranking agree at the labels of that group, whatever the other labels hold.", "quantifier": "all int and float larrys, all axes, all group larrys of strings or of numbers (or None), in any order", "why_tests_cant": "relates runs on infinitely many pairs of inputs", "anchors": ["la/farray/group.py:group_mean", "la/farray/group.py:group_median", "la/farray/group.py:group_ranking", "la/farray/group.py:unique_group", "la/deflarry.py:larry.group_mean", "la/deflarry.py:larry.group_median", "la/deflarry.py:larry.group_ranking"]}
{"id": "C112", "title": "Moving and running functions do not look ahead", "statement": "If two larrys with the same labels have the same elements at the first k labels of an axis, then move_sum, move_mean, move_std, move_min, move_max, move_median, move_ranking, move_func with any function of a window, movingsum with any skip, push, cumsum and cumprod along that axis give the same elements at the first k labels, whatever the other labels hold. If they have the same elements from some label of the axis on, then movingsum_forward gives the same elements from that label on, whatever the labels before hold.", "quantifier": "all larrys of the dtypes the functions take, all axes, windows, skips, methods and k", "why_tests_cant": "relates runs on infinitely many pairs of inputs", "anchors": ["la/farray/move.py:movingsum", "la/farray/move.py:move_func", "la/farray/move.py:move_nanmedian", "la/farray/move.py:move_nanranking", "la/deflarry.py:larry.move_sum", "la/deflarry.py:larry.move_std", "la/deflarry.py:larry.push", "la/deflarry.py:larry.cumsum", "la/deflarry.py:larry.cumprod", "la/farray/move.py:movingsum_forward"]}
{"id": "C113", "title": "Labels at which everything is missing do not count", "statement": "If a larry is another one without some labels of an axis at which all elements are NaN, then sum, mean, median, var, std, min and max along that axis are the same for both, and ranking (with norm '-1,1'), demean, demedian, zscore, group_mean, group_median and group_ranking along that axis give the same elements at the labels that both have.", "quantifier": "all larrys of int, float or bool data as the functions take them, all axes, all sets of labels left out", "why_tests_cant": "relates runs on infinitely many pairs of inputs", "anchors": ["la/deflarry.py:larry.sum", "la/deflarry.py:larry.mean", "la/deflarry.py:larry.median", "la/deflarry.py:larry.std", "la/deflarry.py:larry.var", "la/deflarry.py:larry.min", "la/deflarry.py:larry.max", "la/deflarry.py:larry.ranking", "la/deflarry.py:larry.demean", "la/deflarry.py:larry.demedian", "la/deflarry.py:larry.zscore", "la/farray/normalize.py:ranking", "la/farray/group.py:group_mean", "la/farray/group.py:group_median", "la/farray/group.py:group_ranking"]}
{"id": "C114", "title": "Groups can be computed one at a time", "statement": "Take only the labels of an axis that belong to one group. The mean and the median of that part along the axis are what group_mean and group_median of the whole larry hold at the labels of the group, and the ranking of the part (with the default norm '-1,1') is what group_ranking of the whole larry holds there.", "quantifier": "all int and float larrys, all axes, all group larrys of strings or of numbers (or None), all groups", "why_tests_cant": "relates different functions on infinitely many inputs", "anchors": ["la/farray/group.py:group_mean", "la/farray/group.py:group_median", "la/farray/group.py:group_ranking", "la/farray/normalize.py:ranking", "la/deflarry.py:larry.group_mean", "la/deflarry.py:larry.group_median", "la/deflarry.py:larry.group_ranking", "la/deflarry.py:larry.mean", "la/deflarry.py:larry.median"]}
{"id": "C115", "title": "Lanes do not mix", "statement": "If two larrys with the same labels have the same elements in one lane along an axis, then their sum, mean, median, min, max, var and std along the axis are the same number for that lane, and ranking (with norm '-1,1'), demean, demedian, zscore, move_sum, move_mean, move_std, move_min, move_max, move_median, move_ranking, movingsum and movingsum_forward with any skip, push, cumsum, cumprod, group_mean, group_median and group_ranking along the axis give the same elements in that lane (cumsum and cumprod: the same numbers), whatever the other lanes hold.", "quantifier": "all larrys of the dtypes the functions take, all axes, lanes, windows, methods and groups", "why_tests_cant": "relates runs on infinitely many pairs of inputs", "anchors": ["la/deflarry.py:larry.sum", "la/deflarry.py:larry.mean", "la/deflarry.py:larry.median", "la/deflarry.py:larry.var", "la/deflarry.py:larry.ranking", "la/deflarry.py:larry.demean", "la/deflarry.py:larry.demedian", "la/deflarry.py:larry.zscore", "la/farray/normalize.py:ranking", "la/farray/move.py:move_median", "la/farray/move.py:move_ranking", "la/farray/group.py:group_mean", "la/farray/group.py:group_ranking", "la/farray/move.py:movingsum", "la/deflarry.py:larry.push", "la/deflarry.py:larry.cumsum", "la/deflarry.py:larry.std", "la/farray/move.py:movingsum_forward"]}
