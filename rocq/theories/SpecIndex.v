(** Specification of indexing: which labels an index selects and what the
    result must hold. *)
From Verif Require Export SpecNum.

(** One entry of an index tuple: an integer, a slice, a list (or tuple, or
    integer array), a bool array, or a bool larry. *)
Inductive item := IInt (z : Z) | ISlice (s : slice) | IList (l : list Z) | IBools (l : list bool) | ILarry (m : larry).

Definition is_int (it : item) : Prop := match it with IInt _ => True | _ => False end.
Definition is_slice (it : item) : Prop := match it with ISlice _ => True | _ => False end.
Definition is_list (it : item) : Prop := match it with IInt _ | ISlice _ => False | _ => True end.

(** What is selected along one axis: one label (the axis disappears) or a list
    of labels. *)
Inductive sel := At (x : lab) | Among (l : list lab).

(** The labels chosen by a bool array. *)
Fixpoint chosen (bs : list bool) (l : list lab) : list lab :=
  match bs, l with
  | b :: bs', x :: l' => if b then x :: chosen bs' l' else chosen bs' l'
  | _, _ => []
  end.

(** An index entry selects [s] from the axis labels [l]. *)
Definition selects (l : list lab) (it : item) (s : sel) : Prop :=
  match it, s with
  | IInt z, At x => py_get l z = Some x
  | ISlice sl, Among l' => py_slice sl l = Ok l'
  | IList zs, Among l' => Forall2 (fun z x => py_get l z = Some x) zs l'
  | IBools bs, Among l' => l' = chosen bs l /\ forall i, bs !! i = Some true -> i < length l
  | ILarry m, Among l' => ldtype m = DBool /\ llabel m = [l] /\ kept (fun x => cell m [x] = Some (VBool true)) l l'
  | _, _ => False
  end.
(** An index tuple; axes without an entry are selected whole. *)
Definition selects_all (label : list (list lab)) (items : list item) (ss : list sel) : Prop :=
  length items <= length label /\
  Forall3 selects label (items ++ replicate (length label - length items) (ISlice slice_all)) ss.

(** Labels of the result, and the label tuple of the original cell. *)
Definition sel_labels (ss : list sel) : list (list lab) :=
  omap (fun s => match s with At _ => None | Among l => Some l end) ss.
Fixpoint sel_full (ss : list sel) (ls : list lab) : option (list lab) :=
  match ss, ls with
  | [], [] => Some []
  | At x :: ss', _ => full ← sel_full ss' ls; Some (x :: full)
  | Among _ :: ss', l :: ls' => full ← sel_full ss' ls'; Some (l :: full)
  | _, _ => None
  end.

(** [z] holds the selected cells of [y], each with its own labels. *)
Definition restricted (y : larry) (ss : list sel) (z : larry) : Prop :=
  valid z /\ ldtype z = ldtype y /\ llabel z = sel_labels ss /\
  forall ls, in_grid (llabel z) ls -> exists full, sel_full ss ls = Some full /\ cell z ls = cell y full.

(** The result of indexing: a larry, an element, or an array without labels. *)
Inductive gres := GLar (z : larry) | GVal (v : val) | GArr (a : nda).
Global Instance gres_eq_dec : EqDecision gres.
Proof. solve_decision. Defined.
Definition picked (y : larry) (ss : list sel) (g : gres) : Prop :=
  match g with
  | GLar z => restricted y ss z
  | GVal v => sel_labels ss = [] /\ exists full, sel_full ss [] = Some full /\ cell y full = Some v
  | GArr _ => False
  end.

(** The larrys in an index are well formed. *)
Definition item_ok (it : item) : Prop := match it with ILarry m => valid m | _ => True end.
Definition not_larry (it : item) : Prop := match it with ILarry _ => False | _ => True end.
(** At most one list. *)
Definition one_list (items : list item) : Prop :=
  forall i j a b, items !! i = Some a -> items !! j = Some b -> is_list a -> is_list b -> i = j.
(** Integers and lists stand side by side in the index. *)
Definition joined (items : list item) : Prop :=
  forall i j k a b c, i < j < k -> items !! i = Some a -> items !! j = Some b -> items !! k = Some c ->
    ~ is_slice a -> ~ is_slice c -> ~ is_slice b.
(** No slice stands before a list. *)
Definition list_first (items : list item) : Prop :=
  forall i j a b, i < j -> items !! i = Some a -> items !! j = Some b -> is_list b -> ~ is_slice a.

(** A slice stands between integers and lists, and a slice before the list. *)
Definition separated (items : list item) : Prop := ~ joined items /\ ~ list_first items.
(** Number of slices in an index. *)
Fixpoint slices (items : list item) : nat :=
  match items with
  | [] => 0
  | ISlice _ :: items' => S (slices items')
  | _ :: items' => slices items'
  end.
(** The list of the index stands after [p] slices. *)
Definition list_after (items : list item) (p : nat) : Prop :=
  exists before it after, items = before ++ it :: after /\ is_list it /\ slices before = p.
(** [z] holds the selected cells of [y], but while its labels are in order, its
    first axis runs through the list, which belongs to the labels of axis
    [p]. *)
Definition turned (y : larry) (ss : list sel) (p : nat) (z : larry) : Prop :=
  valid z /\ ldtype z = ldtype y /\ llabel z = sel_labels ss /\
  forall k sl, in_range (lshape z) (k :: sl) ->
    exists ls full, labels_at (sel_labels ss) (take p sl ++ k :: drop p sl) ls /\ sel_full ss ls = Some full /\
      aget (larr z) (k :: sl) = cell y full.

(** The forms of [y[index]]. *)
Inductive subscript := XInt (z : Z) | XSlice (s : slice) | XList (l : list Z) | XBools (l : list bool) | XLarry (m : larry)
  | XTuple (items : list item).
Definition index_items (ix : subscript) : list item :=
  match ix with
  | XInt z => [IInt z]
  | XSlice s => [ISlice s]
  | XList l => [IList l]
  | XBools l => [IBools l]
  | XLarry m => [ILarry m]
  | XTuple items => items
  end.
(** A tuple of integers names every axis. *)
Definition complete (y : larry) (ix : subscript) : Prop :=
  match ix with
  | XTuple items => Forall is_int items -> length items = length (llabel y)
  | _ => True
  end.

(** [z] is [y] with the selected cells replaced: [v ls] at the selected cell
    whose labels in the result are [ls]. *)
Definition overwritten (y : larry) (ss : list sel) (v : list lab -> val -> Prop) (z : larry) : Prop :=
  valid z /\ ldtype z = ldtype y /\ llabel z = llabel y /\
  (forall ls full, in_grid (sel_labels ss) ls -> sel_full ss ls = Some full -> exists w, cell z full = Some w /\ v ls w) /\
  (forall full, (forall ls, in_grid (sel_labels ss) ls -> sel_full ss ls <> Some full) -> cell z full = cell y full).

(** * Label indexing *)

(** The ends of a slice of lix: an index or a one-element list holding a
    label. *)
Inductive lend := EIdx (z : Z) | ELab (l : list lab).
Record lslice := LSlice { l_start : option lend; l_stop : option lend; l_step : option Z }.
Inductive litem := LInt1 (z : Z) | LLabels (l : list lab) | LSl (s : lslice).

(** An end of a slice means a position. *)
Definition end_is (l : list lab) (e : option lend) (z : option Z) : Prop :=
  match e with
  | None => z = None
  | Some (EIdx i) => z = Some i
  | Some (ELab ls) => exists x i, ls = [x] /\ l !! i = Some x /\ z = Some (Z.of_nat i)
  end.
(** The labels meant by an entry of a lix index. *)
Definition lix_labels (l : list lab) (it : litem) (l' : list lab) : Prop :=
  match it with
  | LInt1 z => exists x, py_get l z = Some x /\ l' = [x]
  | LLabels ls => l' = ls /\ forall x, x ∈ ls -> x ∈ l
  | LSl s => exists a b, end_is l (l_start s) a /\ end_is l (l_stop s) b /\ py_slice (Slice a b (l_step s)) l = Ok l'
  end.
Definition lix_full : litem := LSl (LSlice None None None).
Definition lix_all (label : list (list lab)) (items : list litem) (block : list (list lab)) : Prop :=
  length items <= length label /\
  Forall3 lix_labels label (items ++ replicate (length label - length items) lix_full) block.
(** The index of lix. *)
Inductive lix_index := LxInt (z : Z) | LxLabels (l : list lab) | LxSlice (s : lslice) | LxTuple (items : list litem).
Definition lix_parts (ix : lix_index) : list litem :=
  match ix with
  | LxInt z => [LInt1 z]
  | LxLabels l => [LLabels l]
  | LxSlice s => [LSl s]
  | LxTuple items => items
  end.
(** [block]: the labels meant along each axis. *)
Definition lix_block (y : larry) (ix : lix_index) (block : list (list lab)) : Prop :=
  lix_all (llabel y) (lix_parts ix) block.
(** A tuple drops the axes of which one label is meant; otherwise the first
    axis is dropped unless the index is a slice. *)
Definition drop_single (l : list lab) : sel := match l with [x] => At x | _ => Among l end.
Definition lix_sel (ix : lix_index) (block : list (list lab)) : list sel :=
  match ix with
  | LxTuple _ => drop_single <$> block
  | LxSlice _ => Among <$> block
  | LxInt _ | LxLabels _ => (drop_single <$> take 1 block) ++ (Among <$> drop 1 block)
  end.
(** A larry as value: its labels must be those of the block, all axes
    included when the index is a tuple. *)
Definition lix_value_sel (ix : lix_index) (block : list (list lab)) : list sel :=
  match ix with LxTuple _ => Among <$> block | _ => lix_sel ix block end.
