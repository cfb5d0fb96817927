(** Specification of stack, panel, cov, sortby and the creation functions
    (la/flarry.py). *)
From Verif Require Export SpecIndex.
From Coq Require Import Sorted.

(** How stack combines labels. *)
Inductive stack_mode := SUnion | SInter | SBad.

(** [l] is the sorted union or intersection of the labels of the named larrys
    along axis [ax]. *)
Definition combined (mode : stack_mode) (lars : list (string * larry)) (ax : nat) (l : list lab) : Prop :=
  StronglySorted lab_lt l /\
  match mode with
  | SUnion => forall x, x ∈ l <-> exists name y la, (name, y) ∈ lars /\ llabel y !! ax = Some la /\ x ∈ la
  | SInter => forall x, x ∈ l <-> forall name y, (name, y) ∈ lars -> exists la, llabel y !! ax = Some la /\ x ∈ la
  | SBad => False
  end.
(** Python can sort the labels along axis [ax]. *)
Definition names_sortable (lars : list (string * larry)) (ax : nat) : Prop :=
  forall n1 y1 n2 y2 l1 l2 a b, (n1, y1) ∈ lars -> (n2, y2) ∈ lars -> llabel y1 !! ax = Some l1 -> llabel y2 !! ax = Some l2 ->
    a ∈ l1 -> b ∈ l2 -> a = b \/ comparable a b = true.

(** The number in a cell. *)
Definition number_at (y : larry) (ls : list lab) (n : num) : Prop := exists v, cell y ls = Some v /\ to_num v = Some n.

(** [cs] are the columns in which both rows [a] and [b] have data. *)
Definition common_columns (y : larry) (a b : lab) (cs : list lab) : Prop :=
  exists cols, llabel y !! 1 = Some cols /\
  kept (fun c => ~ number_at y [a; c] NaN /\ ~ number_at y [b; c] NaN) cols cs.
(** [n] is the mean of the products of rows [a] and [b] over those columns. *)
Definition cov_entry (y : larry) (a b : lab) (n : num) : Prop :=
  exists cs ps, common_columns y a b cs /\ 2 <= length cs /\
  Forall2 (fun c p => exists na nb, number_at y [a; c] na /\ number_at y [b; c] nb /\ p = num_mul na nb) cs ps /\
  n = num_div (num_total ps) (num_of_nat (length cs)).

(** The order in which numpy sorts: numbers by size with NaN last, strings
    lexicographically. *)
Definition val_le (v w : val) : Prop :=
  match v, w with
  | VStr s, VStr t => lab_le (LStr s) (LStr t)
  | _, _ => exists n m, to_num v = Some n /\ to_num w = Some m /\ (m = NaN \/ num_le n m)
  end.
(** [idx] are the positions of [vs] in sorted order.  Equal elements may come
    in any order. *)
Definition argsorts (vs : list val) (idx : list nat) : Prop :=
  idx ≡ₚ seq 0 (length vs) /\ exists ws, mapM (vs !!.) idx = Some ws /\ StronglySorted val_le ws.

(** Position in C order of an index in an array of shape [sh]. *)
Definition c_order (sh idx : list nat) : nat :=
  fold_left (fun acc (p : nat * nat) => acc * p.1 + p.2) (zip sh idx) 0.

(** The labels of a new larry of shape [sh]: those given, or 0, 1, ... *)
Definition new_labels (label : option (list (list lab))) (sh : list nat) (L : list (list lab)) : Prop :=
  match label with
  | Some l => L = l
  | None => length L = length sh /\
      forall ax n, sh !! ax = Some n -> exists l, L !! ax = Some l /\ length l = n /\ forall i, i < n -> l !! i = Some (LInt (Z.of_nat i))
  end.
(** The shape meant: the label decides if given. *)
Definition new_shape (shape : option (list nat)) (label : option (list (list lab))) (sh : list nat) : Prop :=
  match label with Some l => sh = length <$> l | None => shape = Some sh end.
(** A source of arrays: one of every shape. *)
Definition array_source (dt : dtype) (f : list nat -> nda) : Prop :=
  forall sh, nda_wf (f sh) /\ nd_shape (f sh) = sh /\ nd_dtype (f sh) = dt.

(** No infinity in row [a] or [b] stands in a column where the other is NaN. *)
Definition no_inf_opposite_nan (y : larry) (a b : lab) : Prop :=
  forall c n, is_inf n = true -> ~ (number_at y [a; c] n /\ number_at y [b; c] NaN) /\ ~ (number_at y [a; c] NaN /\ number_at y [b; c] n).

(** numpy's argsort on the arrays sortby sorts. *)
Definition good_argsort (argsort : list val -> list nat) : Prop :=
  forall dt vs, dt <> DObj -> Forall (fun v => has_dtype dt v = true) vs -> argsorts vs (argsort vs).

(** The result of [sortby]. *)
Definition sorted_by (y : larry) (element : lab) (ax : nat) (rev : bool) (z : larry) : Prop :=
  exists l other other', llabel y !! ax = Some l /\ llabel y !! (1 - ax) = Some other /\ element ∈ l /\
  valid z /\ ldtype z = ldtype y /\ length (llabel z) = 2 /\ llabel z !! ax = Some l /\ llabel z !! (1 - ax) = Some other' /\ other' ≡ₚ other /\
  (forall ls, cell z ls = cell y ls) /\
  exists vs, Forall2 (fun o v => cell z (if decide (ax = 0) then [element; o] else [o; element]) = Some v) other' vs /\
  StronglySorted (fun v w => if rev then val_le w v else val_le v w) vs.

(** Shape and label from which a larry can be made. *)
Definition creatable (shape : option (list nat)) (label : option (list (list lab))) (sh : list nat) : Prop :=
  new_shape shape label sh /\ sh <> [] /\ match label with Some l => Forall NoDup l | None => True end.
