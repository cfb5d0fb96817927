(** Other labels in place of the labels of a larry. *)
From Verif Require Export Session SpecOrder.

(** [y] with [f x] in place of each label [x]. *)
Definition rename_list (f : lab -> lab) (l : list lab) : list lab := f <$> l.
Definition rename_lists (f : lab -> lab) (label : list (list lab)) : list (list lab) := rename_list f <$> label.
Definition relabelled (f : lab -> lab) (y : larry) : larry := Larry (lx y) (rename_lists f (llabel y)).

(** [f] has an inverse [g], goes into tuples, and keeps what Python 3 can order
    and how. *)
Record relabelling (f g : lab -> lab) : Prop := Relabelling {
  rl_inverse : forall x, g (f x) = x;
  rl_tuple : forall l, f (LTup l) = LTup (f <$> l);
  rl_orderable : forall x y, orderable (f x) (f y) <-> orderable x y;
  rl_order : forall x y, orderable x y -> (lab_lt (f x) (f y) <-> lab_lt x y) }.

(** The same call with the labels among its arguments changed. *)
Definition rename_item (f : lab -> lab) (it : item) : item :=
  match it with ILarry m => ILarry (relabelled f m) | _ => it end.
Definition rename_subscript (f : lab -> lab) (ix : subscript) : subscript :=
  match ix with
  | XLarry m => XLarry (relabelled f m)
  | XTuple items => XTuple (rename_item f <$> items)
  | _ => ix
  end.
Definition rename_setval (f : lab -> lab) (v : setval) : setval :=
  match v with SLarry z => SLarry (relabelled f z) | SVal _ => v end.
Definition rename_end (f : lab -> lab) (e : lend) : lend := match e with EIdx _ => e | ELab l => ELab (rename_list f l) end.
Definition rename_lslice (f : lab -> lab) (s : lslice) : lslice :=
  LSlice (rename_end f <$> l_start s) (rename_end f <$> l_stop s) (l_step s).
Definition rename_litem (f : lab -> lab) (it : litem) : litem :=
  match it with LInt1 _ => it | LLabels l => LLabels (rename_list f l) | LSl s => LSl (rename_lslice f s) end.
Definition rename_lix (f : lab -> lab) (ix : lix_index) : lix_index :=
  match ix with
  | LxInt _ => ix
  | LxLabels l => LxLabels (rename_list f l)
  | LxSlice s => LxSlice (rename_lslice f s)
  | LxTuple items => LxTuple (rename_litem f <$> items)
  end.
Definition rename_op (f : lab -> lab) (op : label_op) : label_op :=
  match op with
  | KEq v => KEq (f v) | KGt v => KGt (f v) | KLt v => KLt (f v) | KGe v => KGe (f v) | KLe v => KLe (f v)
  | KNe v => KNe (f v) | KIn v => KIn (rename_list f v) | KNotIn v => KNotIn (rename_list f v)
  end.
Definition rename_labels (f : lab -> lab) (label : option (list (list lab))) : option (list (list lab)) :=
  rename_lists f <$> label.

Definition rename_call (f g : lab -> lab) (c : call) : call :=
  match c with
  | CMake x label => CMake x (rename_labels f label)
  | CSet i label v => CSet i (rename_list f label) v
  | CMaplabel i func axis => CMaplabel i (fun x => f (func (g x))) axis
  | CKeepLabel i op axis => CKeepLabel i (rename_op f op) axis
  | CPull i name axis => CPull i (f name) axis
  | CInsertaxis i axis label => CInsertaxis i axis (f label)
  | CMorph i label axis => CMorph i (rename_list f label) axis
  | CGetitem i ix => CGetitem i (rename_subscript f ix)
  | CSetitem i ix v => CSetitem i (rename_subscript f ix) (rename_setval f v)
  | CLixGet i ix => CLixGet i (rename_lix f ix)
  | CLixSet i ix v => CLixSet i (rename_lix f ix) (rename_setval f v)
  | CFromlist d => CFromlist ((fun p : list val * list (list lab) => (p.1, rename_lists f p.2)) <$> d)
  | CFromtuples d => CFromtuples ((fun p : list lab * val => (rename_list f p.1, p.2)) <$> d)
  | CFromdict d => CFromdict ((fun p : list lab * val => (rename_list f p.1, p.2)) <$> d)
  | CSortby argsort i element axis rev => CSortby argsort i (f element) axis rev
  | CLrange shape label start step dt => CLrange shape (rename_labels f label) start step dt
  | CEmpty z shape label => CEmpty z shape (rename_labels f label)
  | CFillNew v z shape label => CFillNew v z shape (rename_labels f label)
  | CRand z args label => CRand z args (rename_labels f label)
  | CMakeDtype x label dt => CMakeDtype x (rename_labels f label) dt
  | _ => c
  end.

(** Calls that neither make labels of their own (0, 1, 2, ... or texts) nor look
    into labels: [shufflelabel] swaps strings in another way than dates, and
    [unflatten] takes strings apart. *)
Definition label_blind (c : call) : Prop :=
  match c with
  | CMake _ label | CLrange _ label _ _ _ | CEmpty _ _ label | CFillNew _ _ _ label | CMakeDtype _ label _ => label <> None
  | CRand _ args label => label <> None \/ args = []
  | CShufflelabel _ _ _ | CUnflatten _ | CStack _ _ _ | CFromcsv _ _ _ _ _ => False
  | _ => True
  end.

(** Changes of labels that are not tuples, and of the elements of tuples. *)
Definition is_tuple (x : lab) : Prop := match x with LTup _ => True | _ => False end.
Fixpoint tuplewise (h : lab -> lab) (x : lab) : lab :=
  match x with LTup l => LTup (tuplewise h <$> l) | _ => h x end.
(** [p] written before each string; [k] added to each number. *)
Fixpoint without (p s : string) : string :=
  match p, s with String _ p', String _ s' => without p' s' | _, _ => s end.
Definition with_prefix (p : string) (k : Z) (x : lab) : lab :=
  match x with LStr s => LStr (p ++ s)%string | LInt z => LInt (z + k) | _ => x end.
Definition without_prefix (p : string) (k : Z) (x : lab) : lab :=
  match x with LStr s => LStr (without p s) | LInt z => LInt (z - k) | _ => x end.
(** The [n]th day in place of the number [n], and the reverse. *)
Definition numbers_for_days (x : lab) : lab :=
  match x with LDate d => LInt d | LInt z => LDate z | _ => x end.
