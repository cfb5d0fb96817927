# Design: a Rocq model of `la` (labeled arrays)

## 1. Approach

The code is Python over numpy, bottleneck and h5py. We write a shallow,
executable Gallina model, function by function, in `rocq/theories`, with
exceptions as values (`res A := Ok a | Err exn`). Every definition cites the
file and lines it models. The tox file pins numpy 1.6-1.8 and Python
2.7/3.3; the model follows those versions (for example a list of slices used as
an index is read as a tuple).

The central specification notion is the *cell* of a larry: `cell y [l0;...;lk]`
is the value `y` holds at the label tuple `(l0,...,lk)`. It is defined in a
small specification file without any function of the model of the code. Almost
all properties say how the cells and the label lists of a result relate to
those of the inputs.

### Layers

| files in `rocq/theories` | content |
|---|---|
| `Base`, `Lab`, `Num`, `NDArray` | exceptions, Python lists, slices and sets; labels, their order and Python's sort; numbers and dtypes; arrays as shape + C-order data and the numpy primitives used |
| `LarryDef`, `Larry` | the larry type, construction, element access, labels, methods that move slices and axes (la/deflarry.py) |
| `Flabel`, `Missing` | la/flabel.py, la/src/cflabel.pyx; la/missing.py |
| `Align`, `Ops`, `Numeric`, `Index`, `Convert` | alignment and merging; operators and binaryop; reductions, accumulations, clip, vacuum, cut_missing, push; indexing; flattening and conversions |
| `Create`, `Farray`, `Move`, `Group`, `Resample` | la/flarry.py stack, panel, cov, sortby, creation; la/farray/normalize.py; la/farray/move.py; la/farray/group.py; la/util/resample.py |
| `Archive`, `Lara` | la/io.py as programs of atomic steps on HDF5 files; indexing of archived larrys |
| `Astype`, `Equal`, `Testing`, `Repr`, `Table`, `Yahoo`, `Moving`, `Unique` | astype; la/util/testing.py; `__repr__` of larrys and archives with prettytable; la/data/yahoo.py; Bottleneck's moving windows; np.unique |
| `Session` | programs of calls of the above on named larrys |
| `Csv` | tocsv, fromcsv, tofile; the writer and reader of Python's csv module |
| `Misc` | keep_x, decayed lastrank, geometric_mean, correlation, log, exp, sqrt, power |
| `Heap`, `Refs` | the same calls on a memory of buffers, views, label lists and larry objects; data and labels as copies or references |
| `Spec`, `Spec*` | specification vocabulary (`valid`, `cell`, lanes, windows, ...), written without the functions of the model |
| `Refine*` | the memory model computes what the value model computes |
| `*Facts`, `AlignRaw`, `AlignMore`, `Index{Get,Lix,Set}`, `LarryMove`, `Ops{Binary,Larry,More}`, `RankLarry` | lemmas and proofs |
| `Props*` | only the property theorems, each closed by `exact`, with examples beside them and `Print Assumptions` below |

### Simplifications common to the whole model

* Floating point data are exact rationals plus NaN, +inf, -inf: rounding,
  signed zero and overflow are not modelled. Integers are unbounded.
* Labels are ints, strings, dates, times, datetimes and tuples of labels,
  with structural equality (so no float/NaN labels, no `1 == 1.0 == True`).
* numpy and bottleneck primitives are modelled by their documented meaning on
  whole arrays or on lanes along an axis, not by their C code.
* Random functions are arbitrary permutations / arbitrary draws given as
  arguments; theorems quantify over them.
* The pure model returns new values; sharing of buffers and label lists is the
  subject of a separate heap model (`Heap`).

## 2. Plan per property

* **C01 listmap maps one list onto another** - `listmap` as dict construction (`dict(zip(...))`, later keys win) plus lookup; induction over lists.
* **C02 listmap_fill separates mappable and unmappable labels** - loop model with index and missing accumulators; characterised pointwise.
* **C03 Python and Cython label maps are interchangeable** - separate models of the Python and the Cython loops, proved equal as functions.
* **C04 flattenlabel enumerates the label grid in array order** - nested-loop model; proved equal to the C-order index enumeration of the array model, F by reversal.
* **C05 list2index is a sorted-unique factorization** - `sorted(set(L))` and the enumerate dict; induction.
* **C06 The constructor accepts exactly the well formed larrys** - `mk_larry` mirrors the checks in order; iff with the independent `valid` predicate.
* **C07 Every chain of methods preserves larry integrity** - Session.v: an inductive type of method calls, `run` interpreting a program of calls; invariant by induction over programs, one lemma per method (SessionFacts.v). False for four kinds of calls, refuted with witnesses; `fine` (SpecSession.v) leaves exactly these out.
* **C08 maplabel can break label uniqueness** - positive theorem under injectivity, refutation by witness.
* **C09 get reads what set wrote and nothing else moves** - `labelindex`, `set`, `get` over cells; frame theorem.
* **C10 Indexing never detaches data from labels** - numpy basic and advanced indexing as gather maps; positive theorem for the index forms where it holds and a refutation for `y[int, slice, list]`.
* **C11 take keeps labels with data** - gather along an axis.
* **C12 Label indexing (lix) is rectangular and label faithful** - `Lix` getitem/setitem; positive theorem and refutation for empty selections.
* **C13 labelindex finds the label** - list.index and the `max(idx)` rule; exact case, sorted nearest case; refutation for unsorted labels.
* **C14 keep_label filters by label** - filter of labels and gather; refutation for the no-match case, which returns a 1d empty larry.
* **C15 pull extracts one slice** - gather; refutation for shape (n,1) inputs where a scalar is returned.
* **C16 morph realigns one axis to a requested label list** - both branches of morph, all dtypes; cell theorem.
* **C17 morph_like aligns to another larry** - iteration of C16.
* **C18 merge is the union of two larrys** - cell theorem for all values and dtypes, exact condition for success; refutations for infinities and for int targets.
* **C19 align joins labels and keeps cells** - per-axis step with invariant, induction over axes.
* **C20 Arithmetic aligns by label** - generic elementwise operator; induction over axes in `__align`.
* **C21 binaryop missing value rules** - from C19 plus masks.
* **C22 Operations documented as returning copies leave their inputs alone** - heap model with buffers, views and label references; frame theorems; refutations for `merge` and `binaryop`.
* **C23 align_axis aligns many larrys on one axis each** - positive when all axes are equal; for different axes the exact result (labels read along the axis of the previous larry) and a refutation of the documented one; exact condition for success.
* **C24 union and intersection of labels** - fold over sets.
* **C25 flatten and unflatten** - C04 plus `fromlists`; round trip on cells.
* **C26 Conversions round trip** - `fromlists` with duplicate assignments; cell theorem.
* **C27 sortaxis sorts labels and carries the data** - C16 plus sort.
* **C28 flipaxis reverses and is an involution** - gather with reversed axis.
* **C29 Transpose and swapaxes** - gather with reversed / swapped index.
* **C30 insertaxis, squeeze and pull are inverse** - index insertion; list.insert vs expand_dims.
* **C31 lag shifts data against labels** - Python slices with negative bounds.
* **C32 cumsum and cumprod ignore NaN** - lane function; induction.
* **C33 Reductions skip NaN and drop the axis label** - lane reductions.
* **C34 clip bounds the data** - elementwise.
* **C35 vacuum removes exactly the empty slices** - any over the other axes; refutation for negative axis.
* **C36 cut_missing removes exactly the slices with too many missing values** - count over the other axes; refutation for axis=None (nothing is cut).
* **C37 push fills forward at most n periods** - lane loop with `recent`/`count` state; invariant.
* **C38 nan_replace and ismissing** - elementwise over dtypes; `bn.replace` leaves arrays without floats alone.
* **C39 movingsum is a windowed NaN-aware sum** - difference of cumulative sums; algebra over rationals.
* **C40 Moving window functions: loop and strides methods agree** - loop and strided window models; equality.
* **C41 ranking is an order-preserving normalization** - average ranks as counts; order lemmas.
* **C42 lastrank is the last element of ranking** - equality under the guard that holds; refutation with one finite value and with infinities.
* **C43 quantile bins are ordered and balanced** - ranks and bin edges over rationals.
* **C44 Group statistics act within groups** - loop over unique groups with masked assignment.
* **C45 cross_validation partitions the index** - slices of a permutation; float division `int(1.0*n/kfold)` as floor (exact below 2^53).
* **C46 bootstrap yields training samples and their complement** - state machine over a stream of draws; partial correctness (termination depends on the draws).
* **C47 Archive behaves like a dictionary of larrys** - archive as a finite map from names to groups; refinement to a map of larrys.
* **C48 Archived labels round trip** - `_list2array`/`_load_label` over label types; refutations for time zones and tuples.
* **C49 Overwriting a key is all or nothing** - refutation by crash point and by failing label conversion; what is preserved for other keys.
* **C50 repack never loses the archive** - file system as a map from names to contents; every prefix of the steps.
* **C51 stack builds a 3d larry from 2d ones** - from C16 and C24.
* **C52 panel reshapes without moving labels** - index arithmetic of transpose and F-order reshape.
* **C53 cov is a symmetric pairwise-complete covariance** - sums over lanes.
* **C54 sortby orders a 2d larry by one row or column** - argsort as any sorting permutation.
* **C55 Array creation shortcuts** - constructors.
* **C56 demean centres every lane** - sum algebra; median via sorted lane.
* **C57 isaligned decides label equality** - list equality.
* **C58 shuffle permutes the data and only the data** - permutation given as argument.
* **C59 split separates training and test data** - C45 plus C11.
* **C60 Binary operations with arrays keep integrity** - numpy broadcasting; refutation by witness, positive theorem for arrays that fit (an iff).
* **C61 Reflected operators** - `__rsub__` as negation of `__sub__`, the others directly; refutation for two booleans.
* **C62 Elementwise methods keep labels** - map over the array; specification of abs and sign by order.
* **C63 Index assignment writes exactly the selected cells** - the gather maps of C10 as scatter; a larry mask writes where it is true.
* **C64 zscore standardises every lane** - C56 plus the standard deviation, the square root being a parameter.
* **C65 larry.move_func hands its key word arguments to the function** - refutation (they are dropped); theorem for calls without key words.
* **C66 keep_x keeps exactly the data satisfying the condition** - elementwise comparison and mask assignment, then C35; refutations for infinities, int and bool larrys.
* **C67 lastrank with decay is a weighted rank** - exponential as a parameter; lane sums split into less, equal and greater.
* **C68 correlation is pairwise complete, symmetric and bounded** - the three code paths against one specification on lanes; Cauchy-Schwarz over rationals; refutation for int arrays opposite NaN.
* **C69 geometric_mean is the exponential of the mean logarithm** - exp and log as parameters.
* **C70 log, exp, sqrt and power act on every element and keep labels** - elementwise with parameters.
* **C71 tocsv followed by fromcsv keeps data and labels** - the writer and the reader's state machine of Python's csv module on characters; read after write is the identity; then C26 on the relabelled larry. str and float() are parameters. Refutations: labels with equal text, bool data, Python 3 (line breaks, skiprows).
* **C72 fromcsv reads a table of labelled values** - C26 for the parsed rows.
* **C73 tofile writes a table that can be split again** - text level; refutation for labels containing the delimiter and for larrys without columns, whose file is given exactly.
* **C74 Sharing is invisible unless something is changed in place** - relation `has h p y` between objects in `Heap` and values in `Session`; one lemma per call that the memory version returns an object having the value computed; induction over programs. With calls in place the invariant adds that no two larrys share a part. merge and binaryop with missone or misstwo are taken one by one: what is written is computed from values read before, and the two arrays written are in different buffers.
* **C75 Archives with larrys in groups are dictionaries** - relation between the tree of groups and a dictionary of paths kept by save, delete and clear; induction over programs; the flat case (C47) has no restriction on assigning again.
* **C76 quotes collects the histories of all tickers** - text level parser related to a grammar of lines; invariant that the larry so far is the table of the tickers so far, kept by `merge` (C18); then `sortaxis` (C27), the adjustment lane by lane and `__getitem__` (C10).
* **C77 assert_iscopy and assert_isview tell copies from views** - `Testing.v` models `np.may_share_memory` (overlap of the ranges of positions) and the two checks on the memory of `Heap.v`; soundness from the positions, completeness for the results of calls from C22 (`hexec_own`); witnesses for the ways in which the documentation fails.
* **C78 Tables are drawn with aligned columns and wrapped text fits** - relational spec of a drawn table (fields, rows of several lines, bars) in `SpecTable.v`; `map(None, ...)` of Python 2 modelled literally with its special cases for one argument; wrapping by induction over the words with the lines of a concatenation as key lemma.
* **C79 unique returns the sorted elements, their first places and the way back** - np.unique modelled literally (argsort, flags of changes, cumulated flags, inverse permutation) over abstract sorts with a specification; heads of runs of equal elements as the intermediate notion; the inverse by `argsort_inverse` of the rankings.
* **C80 assert_larry_equal passes exactly for equal larrys** - numpy.testing modelled by its source (special values compared by position, then removed from both arrays, rounding of the differences); independent relation `alike` on cells; the two removals are aligned by induction; with C77 and the ownership theorems of C22 the check passes for every call that makes no view.
* **C81 The text of a larry tells larrys apart** - str of a label and repr of an array are parameters; specification by lines; reading the text back: lines end at the first `x` line, names do not begin with spaces, labels do; then labels agree line by line.
* **C82 The moving window statistics see only their window** - model the one-pass algorithm of Bottleneck (running count, sum and sum of squares); the running sum is the difference of two prefix sums, so the window sum unless an infinity came before; variance identity over the rationals; agreement with movingsum.
* **C83 Changing the dtype keeps labels and, where it can, values** - cast element by element; specification by inequalities (truncation), not by the function of the model; larry level by the grid of cells; round trips by Forall over the data.
* **C84 True division** - numpy's two divisions as separate operators (`ADiv`, `AOldDiv`); equality of the operators on arrays lifted to larrys through `op_align`. Refutation for ints in Python 2: the module lacks `from __future__ import division`, so the result is that of `//` (theorem).
* **C85 Indexing an archived larry** - model h5py's orthogonal selection (`h5_select`) as numpy's with the list axis kept in place; equivalence with `resolve` entry by entry (`h5_resolve_iff`), then the regrid lemma of C10; for assignment `node_alter` of the dataset with a frame lemma for other paths and for the directory. Refutations: lists outside tuples, empty larrys, larrys as values, laras opened before the larry was replaced.
* **C86 noreference and nocopy tell references from copies** - `Refs.v` on the memory of `Heap.v`; array objects have no address there, so whether `larry1.x is larry2.x` is a parameter of which only `identity` (SpecRefs.v) is assumed. Both checks as equivalences; completeness for larrys that share nothing and for the results of calls (C22); a view as witness against the documentation.
* **C87 Data and labels as copies or references** - `Refs.v` on the memory of `Heap.v`: `h_getx`, `h_copyx`, `h_A`, `h_getlabel` and `copylabel` of Heap.v; the runs are computed (`copyx_run`, `getlabel_run`), the frame is that of `write` (HeapFacts.v).
* **C88 Assigning an array** - `SetArray.v`: `assign_array` writes the broadcast array position by position (numpy's rule, `bshape`/`bindex` of NDArray.v) through the selections of `Index.v`. `SetArrayFacts.v`: one lemma on scattered writes (`scatter_by`), then the selections of IndexSet.v/IndexLix.v. `SpecSetArray.v`: `array_value`, `marked`, `storable`.
* **C89 Computing and selecting commute** - `Methods.v` lists the methods of each kind. `PickFacts.v`: picking positions of one axis commutes with building, mapping, working along and reducing arrays. `CommuteFacts.v`, `CommuteLanes.v`, `CommuteReduce.v`: a relation between the runs on the larry and on the part, method by method, following the code including its early exits for empty arrays. `CommuteMain.v`: from positions to labels (`part_of` in `SpecCommute.v`).
* **C90 Labels are ordered and sorted as in Python** - `Lab.v` compares keys (`lab_cmp`, `comparable`, `py_sorted`). `SpecOrder.v` states the order inductively, times by microseconds since midnight; `OrderFacts.v` proves both equal.
* **C91 The order of the labels does not matter where it should not** - `Methods.v` lists the methods. `ReorderFacts.v`: lane functions that are invariant or equivariant under permutations, arrays with one axis permuted; `ReorderMain.v` lifts this to larrys. Values are exact, so rounding that depends on the order of summation is outside the model.
* **C92 maxlabel and minlabel give the extreme labels** - `SpecExtreme.v` says which labels are looked at; `ExtremeFacts.v` proves the folds of Python's max and min correct with the order of C90.
* **C93 A summary of summaries is the summary of the larry** - `SummaryFacts.v`: the lanes of an array along an axis are a permutation of its data; sum, extremes and truth of a concatenation. The conditions are shown to be needed.
* **C94 Other labels change nothing but the labels** - `SpecRelabel.v`: changes of labels and of the calls of `Session.v`. `RelabelFacts.v` (lists of labels), `RelabelLarry.v`, `RelabelAlign.v`, `RelabelMain.v` (one lemma per method), `RelabelProgram.v` (programs), `RelabelInstances.v` (changes of labels there are).
* **C95 The axes are interchangeable** - `SpecAxes.v`: larrys with their axes in another order. `AxesFacts.v` (arrays), `AxesCells.v`, `AxesLanes.v`, `AxesReduce.v` (one lemma per method), `AxesMain.v` (both directions, transposing, exchanging two axes).
* **C96 Statistics follow a change of origin, of unit or of sign, and ranks follow no increasing change** - `SpecShift.v`: larrys with every number changed by a function. `ShiftFacts.v` (numbers and lists), `ShiftMain.v` (a method whose lane function follows a change follows it on larrys), `ShiftStats.v` (which lane functions follow which changes).
* **C97 The operators between larrys obey the laws of algebra** - `SpecLaws.v`: mirrored and contrary comparisons, conditions on dtypes and special values. `LawsFacts.v`: the result of any operator is the inner alignment combined cell by cell (`combined`); inner alignment is associative; laws of `+ - *`. `LawsLogic.v`: comparisons, `&`, `|`.
* **C98 Type tests, random strings and the space of archives** - `Scalar.v`: NumPy's classes with their bases, issubdtype, the tests on top of it; indexing by a scalar of any type; randstring with the draws as parameter; freespace with the storage of a dataset as parameter. `SpecScalar.v`: kinds of scalars and paths to datasets without classes or traversal.
* **C99 Normalising what is normalised** - No new model: composition of the lanewise methods of `Farray.v` lane by lane, the lane facts from the shift and scale invariance of C96, for ranks from being increasing on the numbers of the lane. `SpecTwice.v`: what a square root is; an exact one (NaN for non-squares) shows that there are some.
* **C100 Two calls in one** - No new model: each law follows from the cell and label specifications of the single calls (C11, C14, C16, C18, C19, C27, C28, C31, C34, C38), which determine the result completely; `StepsFacts.v`, `Steps2Facts.v`, `Steps3Facts.v`.
* **C101 One result by different roads** - No new model: both sides are functions of the model, written after different code in la, and each side's own specification by cells and labels determines its result; `SpecRoads.v`, `RoadsFacts.v`, `Roads2Facts.v`, `Roads3Facts.v`, `Roads4Facts.v`.
* **C102 Elements follow exact arithmetic and its limits** - `Num.v` gives the special values by tables; the property says what the tables must be without repeating them: numbers are limits of rational sequences (`approaches`), `limit_or_nan` is the limit over all of them. Existence, uniqueness and the failing cases (two pairs of sequences with different limits) are proved over Q with `lra`/`nra`; `SpecLimit.v`, `LimitFacts.v`, `Limit2Facts.v`.
* **C103 Positions and slices are those of Python** - The meaning of a slice is stated as a set of positions (`upward`, `downward`: range and divisibility) and an order (`StronglySorted`), not by the clamping and counting of `slice_positions` in `Base.v`; the two are proved equivalent, then C10 and C11 give the larry theorems. Pins the helpers `py_get` and `py_slice`, which other specifications use; `SpecSlice.v`, `SliceFacts.v`, `Slice2Facts.v`.
* **C104 A larry is a table with one typed element per combination of labels** - Pins `valid`, `cell`, `has_dtype` and the casts, on which the other specifications rest, to an enumeration of the combinations of labels; `SpecCells.v`, `CellsFacts.v`.
* **C105 Statistics lie within the data** - From C33 and C82: an order argument on the exact sum of the numbers that are not NaN, both infinities treated apart; the three results are related element by element through their labels. `SpecBounds.v`, `BoundsFacts.v`, `Bounds2Facts.v`.
* **C106 Larger data have larger statistics** - From C32, C33, C40 and C82. Sums are monotone; for medians two sorted lists are in order at every position when some matching of their elements is (exchange argument). All elements (axis None) may be listed in different orders in the two runs. `SpecMono.v`, `MonoFacts.v`, `Mono2Facts.v`.
* **C107 The statistics of a whole from those of two parts** - From C14 (keep_label) and C33 (reductions): every lane of the larry is, up to order, the lanes of the two parts one after the other, and so are all elements. Then sums add up and extremes are the extreme of the two extremes. `SpecParts.v`, `PartsFacts.v`; merging from C18, `Parts2Facts.v`.
* **C108 Windows as wide as the data and windows of one element** - From C82, C40, C33 and C32: the only full window is the lane itself, before which nothing can be infinite; the statistics of a list are unique (a sorted list is, for the median). `SpecSpan.v`, `SpanFacts.v`; std, rank and cumprod in `Span2Facts.v`.
* **C109 One group for all and every label its own group** - From C44, C33 and C41: the members of the only group are the whole lane, the members of a group of one label are one element; statistics of a list are unique, and of one number are that number. `SpecOneGroup.v`, `OneGroupFacts.v`.
* **C110 Skipped elements of moving sums, steps of running totals** - From C39, C31 and C32: the window of place k with s skipped is the window of place k-s with none skipped; a running total of one element more is the total plus that element. `SpecSkip.v`, `SkipFacts.v`.
* **C111 Names of groups and elements of other groups do not matter** - From C44: what a group holds depends on the places of the group only, and the statistics of those elements are unique. `SpecNaming.v`, `NamingFacts.v`.
* **C112 Moving and running functions do not look ahead** - From C32, C37, C39, C40 and C82: what these functions hold at a place is determined by the elements up to that place, and the statistics are unique. The forward sums are those of reversed lanes. `SpecAhead.v`, `AheadFacts.v`.
* **C113 Labels at which everything is missing do not count** - From C33, C41, C44, C56 and C64: these functions depend on the numbers of a lane (or of a group's part of it) that are not NaN, which are the same for both. `SpecThin.v`, `ThinFacts.v`, `Thin2Facts.v`.
* **C114 Groups can be computed one at a time** - From C44, C33 and C41: the lane of the part is the list of the members of the group. `SpecApart.v`, `ApartFacts.v`.
* **C115 Lanes do not mix** - From C32, C33, C37, C39, C40, C41, C44, C56, C64 and C82: each function is described lane by lane, and the description determines the lane. `SpecAlone.v`, `AloneFacts.v`.

## 3. Trusted base

* Coq 8.16.1's kernel.
* `Print Assumptions` stands under every property theorem in the `Props*`
  files. For every one of them it answers "Closed under the global context":
  no axiom is used, neither ours nor one of the standard library. (`coqchk`
  lists seven axioms of the ssreflect `ssrunder` library, which std++ loads; no
  theorem depends on them.)
* The reading of `/repo` recorded in the citations, and the simplifications
  stated in section 1, in section 4 and at the definitions.

No functor, module type, axiom, section-less variable or disabled kernel check
is used.

## 4. What is modelled and what is not

### Modelled

* la/deflarry.py: the constructor (18-138), all operators, elementwise methods
  and reductions,
  cumsum/cumprod, clip, comparisons, indexing (getitem, setitem with values, larrys and arrays, lix, take, get,
  set, getlabel, labelindex, maxlabel/minlabel), pull, fill, keep_label,
  maplabel, the moving window methods, demean, demedian, zscore, ranking,
  lastrank, keep_x, quantile, the group methods, morph, morph_like, merge,
  squeeze, lag, sortaxis, flipaxis, shuffle, shufflelabel, ismissing,
  cut_missing, push, vacuum, nan_replace, astype, T, swapaxes, flatten,
  unflatten, insertaxis, the conversions to and from tuples, lists,
  dictionaries and csv files, tofile, copy, getx, copyx, copylabel, A,
  `__repr__`. Python's csv module (excel dialect)
  is modelled by character; str, repr and float() are parameters.
* la/flabel.py and la/src/cflabel.pyx: all. la/missing.py: all.
* la/flarry.py: all (the random numbers are parameters).
* la/farray: normalize.py, move.py, group.py and misc.py (correlation of
  arrays of one shape; 1d arrays with axis 0 or None).
* la/io.py: all, larrys in nested groups and
  indexing of laras included; `__repr__` with
  la/external/prettytable.py.
* la/util/testing.py: assert_larry_equal, assert_iscopy, assert_isview, with the
  functions of numpy.testing that they call; noreference, nocopy.
* la/data/yahoo.py and the reading of pages in la/external/matplotlib.py; the
  web, float(), int() and datetime.date are parameters.
* la/util/resample.py: all. la/util/misc.py: all.

### Not modelled

* The values of log, exp, sqrt and power with a float exponent: they are
  parameters of the model, with the assumptions stated in the theorems (C67 to
  C70). Rounding, signed zero, overflow, integer widths.
* The texts of labels and of arrays (`str`, `repr`); opening and closing of text files; la/util/report.py (versions of
  the installation); the messages of assert_larry_equal, printfail.
* astype between texts and numbers, from objects, and of NaN or infinities to
  ints.
* Object arrays except as opaque values (None and others), structured and
  datetime dtypes; string widths (`S3` against `S5`).
* Labels that are floats, NaN or that compare equal across types
  (`1 == 1.0 == True`); labels that are mutable.
* The C code of numpy, Bottleneck and HDF5: their documented behaviour is
  assumed; h5py groups are finite maps, each change of a file is atomic and in
  order.
* Time, memory limits, concurrency.

### Simplifications of single parts

* `Heap`: the values a call stores are those of the value model; intermediate
  arrays that cannot be reached from the result are left out. Functions
  of numpy, Bottleneck and la/farray return new arrays unless a definition says
  otherwise. Elements of arrays and labels are immutable. Array objects have no
  address: an array is a buffer and positions in it.
* `Archive`: Python 2 (in Python 3 h5py refuses the label arrays of strings).
* `Lara`: the selection rules of h5py 2.0 to 2.2; lists with negative positions
  count as refused; a larry as index of an assignment is left out.
* `SetArray`: an array with more axes than the selection, the additional ones
  all of length 1, is left out.
* `store`: a number stored into an array of strings, and a string stored into
  an array of numbers, is refused; NaN and infinities are refused by int arrays.
* `Resample`, `Create`: the random numbers and the order among ties in
  `argsort` are parameters of the functions; theorems hold for all of them.
* `Move`: nanmedian by its specification; the strides method on real strided
  views.
* `Moving`: Bottleneck's moving sum, mean and std by their one-pass
  algorithm, minimum and maximum by their specification.

### Agreement with the project's unit tests

`UnitDeflarry.v`, `UnitFlarry.v` and `UnitOther.v` state 527 assertions of 360
unit tests of la as examples about the model, each with the line of its test.
They are closed by computation. The comparisons are in `UnitBase.v`; the
tolerance is the 1e-8 of the tests, and a root to twelve digits stands for
`np.sqrt`. They say nothing about all inputs: they are evidence that the model
is the program, on the inputs its authors chose.

- `tools/unit` wrote them. It parses the test files with `ast` and writes
  literals and calls as Coq terms; it imports and executes nothing of /repo.
- It leaves out what it does not follow: loops, random data, arithmetic on
  arrays, generated tests, `noreference` and `nocopy` (memory is the subject of
  `Heap.v`). The choice was not made by whether the model agrees.
- A function of `la.farray` is read as the larry method of the same name.
- Every disagreement met on the way was an error of the reader: an assignment
  to `label[i]`, an augmented assignment, and a list of booleans as the only
  subscript, which la reads as integers (la/deflarry.py:1837-1844).
- An earlier scratch version of the reader executed `deflarry_test.py` and
  `flarry_test.py` once with stand-ins for la and numpy. The task asks that
  nothing of /repo be run, so it was thrown away. It printed counts of tests
  only, and nothing here comes from it.

## 5. Disagreements between the code and what it promises

Each is a theorem `..._refuted` with a witness, or an example.

| theorem | what happens |
|---|---|
| C07_maplabel, C08 | maplabel with a function that is not injective makes duplicate labels without complaint |
| C07_squeeze | squeeze of a larry with one element is a 0d larry with no label |
| C07_array, C60_bigger | adding an array that broadcasts to a bigger shape gives a larry whose labels do not fit |
| C07_compare, C20_compare_str | == between strings and numbers gives a larry whose x is not an array |
| C10_separated | `y[int, slice, list]`: numpy moves the list axis first, the labels stay; theorem C10_separated says where every element goes, C10_separated_cases when it is an error |
| C10_short_tuple | `y[(0,)]` of a 2d larry is an array without labels |
| C12_lix_get_empty | lix with a tuple selecting nothing along an axis is an error, reading and assigning (numpy before 1.9: np.ix_ turns an empty list into floats) |
| C13_labelindex_inexact | exact=False on unsorted labels returns the last label not above the name |
| C14_keep_label_nothing | nothing matches: `larry([])`, all labels lost |
| C15_pull_scalar, C30_insertaxis_pull | pull from shape (n, 1) returns a scalar |
| C18_merge_infinity, C18_merge_int | merge drops infinities as missing; int larrys with a proper subset of labels: TypeError |
| C19_align_empty | outer join with an axis of length zero: IndexError; C19_align_succeeds is the exact condition of success |
| C21_skip | binaryop with join='skip' leaves None in place of a label list |
| C22_getitem, _pull, _squeeze, _lix | results are views: writing to them changes the argument |
| C22_merge | merge of equally labelled larrys returns self after writing to it |
| C22_binaryop | missone/misstwo are written into the input larrys |
| C23_align_axis | inner/outer joins on different axes use the axis of the previous larry |
| C33_prod_int | prod of a 2d int larry along an axis: ValueError (NaN written into int array), for every such larry with an element |
| C35_vacuum_negative | a negative axis is not counted from the end |
| C36_cut_missing_none | axis=None cuts nothing |
| C39_infinity | behind an infinity moving sums are NaN for ever |
| C42_lastrank_inf, _single | lastrank differs from the last column of ranking |
| C49_crash, C49_failure | overwriting a key deletes first; labels of mixed type leave the key unusable |
| C52_panel_empty | panel of an empty first axis: ValueError, always |
| C53_cov_inf | an infinity opposite a NaN makes the covariance NaN |
| C56_infinity | demean with an infinity leaves NaN |
| C58_shufflelabel_mixed | a label without slices behind a string or tuple label: always TypeError |
| C61_bool_subtract | bool - larry of bools is not the difference |
| C65_kwargs | larry.move_func drops its key word arguments |
| C66_int, C66_bool, C66 | keep_x: every int larry is a ValueError, in bool larrys the elements to blank become True, infinities that satisfy the condition are vacuumed away |
| C71_label, C71_bool, C71_python3 | tocsv and fromcsv: labels with the same text (1 and '1') are merged and an element is lost; bool data are written as True and cannot be read; with Python 3 a carriage return in a label becomes a line feed |
| C72_missing, C72_python3 | fromcsv: when a row has no value, all rows are cut and the labels of the last axis are silently read as values; with Python 3 skiprows > 0 is an AttributeError (reader.next) |
| C73_quoting | tofile does not quote labels: different larrys give the same file |
| C73_no_columns | tofile writes for a 2d larry without columns the heading of one column with an empty label |
| C75_again | io['a/b'] = y raises RuntimeError when the key exists: `save` looks for it in the list of top level names, so the old larry is not deleted first (Python 2; the list has no nested names) |
| C75_group | after del io['a/b'] the empty group a remains and io['a'] = y raises KeyError |
| C75_inside | io['a/b'] inside the larry io['a'] is accepted; deleting a deletes both, clear raises KeyError half way |
| C76_repeat | quotes with a ticker given twice raises ValueError |
| C76_no_day | quotes raises TypeError (None is unpacked) if one ticker has no entry between the dates, and AttributeError without tickers (C76_no_tickers) |
| C77_cross_axis_refuted | `assert_iscopy` compares the lists of labels axis by axis: after `z = y[0, [1, 0]]` of a 3d larry it passes although both use the same list for the last axis of `y`. |
| C77_no_element_refuted | `assert_iscopy` complains about `y[:, ::2]` and `y[:, 1::2]`, which have no element and no label in common: `np.may_share_memory` compares the bounds only. |
| C77_isview_refuted | `assert_isview` passes for two different columns pulled out of one larry, which have no element in common. |
| C77_squeeze_refuted | `assert_isview` fails for the result of `squeeze`, which consists of references only, if an axis before the last was removed. |
| C78_one_column_refuted | In a table of one column every entry falls apart into characters, one per column: `map(None, l)` returns `l` and not a list of 1-tuples. |
| C78_one_row_refuted | In a table of one row the columns are taken to be one character wide, so that the bar is too short, and an empty entry raises a ValueError. |
| C78_short_row_refuted | A missing entry at the end of a row counts as four characters, those of `None`. |
| C78_empty_archive_refuted | The table of an empty archive has a bar that is too short. |
| C78_wrap_strict_refuted | `wrap_onspace_strict` does not enforce the width where words are separated by tabs. |
| C79_nan_refuted | NaN is not equal to itself, so every NaN of the data is in the result. |
| C80_strings_refuted | Two different string scalars raise a TypeError, not an AssertionError (`'b' - 'a'` in assert_almost_equal). |
| C80_transitive_refuted | Float larrys up to 1.5e-13 apart pass, whatever their scale, so passing is not transitive. |
| C80_iscopy_refuted | The documentation of `iscopy` says that actual and desired are checked for shared references; the code checks actual and original. |
| C80_object_refuted | A larry of objects that holds NaN is not equal to itself. |
| C81_long_refuted | Two larrys that differ in a label in the middle of an axis of more than ten have the same text. |
| C81_types_refuted | So have larrys with label 1 and label '1'. |
| C81_newline_refuted | So have larrys whose string labels contain line feeds. |
| C82_infinity | move_sum, move_mean and move_std are NaN for ever behind an infinity |
| C84_python2 | __truediv__ and __rtruediv__ of int or bool larrys in Python 2 (a program with `from __future__ import division`): the `/` inside the method is the old one, so the result is floored; C84_python2_floor says it is exactly that of `//` |
| C85_list, C85_empty | la/io.py says that to convert a lara into a larry one just indexes into it: a list, array or larry outside a tuple raises AttributeError (a dataset has no `take`, a lara no `copylabel`), and `[:]` of a larry without elements raises ValueError (h5py refuses empty selections) |
| C85_set_larry | `lara[index] = larry` always raises: `self[index]` has set `self.x` to None before it is assigned to |
| C85_stale | a lara keeps the labels of the larry it was opened for: after `io[key] = other` indexing gives the new data with the old labels, possibly an ill formed larry |
| C86 | `noreference` is documented to return True if there are no shared references: it compares the array objects and the lists of the same axis only. `y[1:]` shares the data of `y` and passes, and so do larrys that share a list of labels along different axes |
| C97 | `+` on three larrys of which two are bool is not associative: NumPy adds bools by "or", so `(t + t) + 1` is 2 and `t + (t + 1)` is 3 (`C97_add_bool_refuted`); `*` does not distribute over `+` when the factor holds an infinity (`C97_distribute_inf_refuted`); `>=` is not the inverse of `<` for NaN (`C97_comparison_nan_refuted`) |
| C98 | `isint` is documented to be True for integers but is False for NumPy's unsigned integers, because `issubdtype(t, int)` asks for `signedinteger` (`C98_isint_refuted`); so `y[numpy.uint64(1)]` raises IndexError although `y[1]` is there (`C98_index_refuted`). A float index is cut to an integer, NaN raises ValueError |
| C68 | correlation with an axis, of an int array and an array with NaN: ValueError |
| C48 examples | time zones are lost, tuple labels cannot be loaded |
