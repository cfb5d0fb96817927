(** N-dimensional arrays: shape plus elements in C (row-major) order, and the
    numpy operations the modelled code uses. *)
From Verif Require Export Base Num.

Record arr (A : Type) := Arr { shape : list nat; data : list A }.
Global Arguments Arr {_} _ _.
Global Arguments shape {_} _.
Global Arguments data {_} _.

Global Instance arr_eq_dec `{EqDecision A} : EqDecision (arr A).
Proof. solve_decision. Defined.

(** Number of elements of a shape. *)
Definition size_of (sh : list nat) : nat := foldr Nat.mul 1 sh.
Definition ndim {A} (a : arr A) : nat := length (shape a).
Definition asize {A} (a : arr A) : nat := size_of (shape a).

(** An array is complete when it has exactly as many elements as its shape
    says. *)
Definition arr_wf {A} (a : arr A) : Prop := length (data a) = asize a.

(** [idx] is a legal (nonnegative) multi-index for shape [sh]. *)
Definition in_range (sh idx : list nat) : Prop := Forall2 lt idx sh.
Global Instance in_range_dec sh idx : Decision (in_range sh idx).
Proof. unfold in_range. apply _. Defined.

(** Position of a multi-index in C order. *)
Fixpoint ravel (sh idx : list nat) : nat :=
  match sh, idx with
  | n :: sh', i :: idx' => i * size_of sh' + ravel sh' idx'
  | _, _ => 0
  end.

(** All multi-indices of a shape in C order. *)
Fixpoint indices (sh : list nat) : list (list nat) :=
  match sh with
  | [] => [[]]
  | n :: sh' => seq 0 n ≫= fun i => cons i <$> indices sh'
  end.

(** [x[i, j, ...]]. *)
Definition aget {A} (a : arr A) (idx : list nat) : option A :=
  if decide (in_range (shape a) idx) then data a !! ravel (shape a) idx else None.

(** Array of shape [sh] whose element at [idx] is computed by [f]; [None] if
    some element cannot be computed. *)
Definition build {A} (sh : list nat) (f : list nat -> option A) : option (arr A) :=
  Arr sh <$> mapM f (indices sh).

(** Array of shape [sh] whose element at [idx] is the element of [a] at
    [m idx]: slicing, fancy indexing, transposing, reshaping, ... *)
Definition gather {A} (a : arr A) (sh : list nat) (m : list nat -> option (list nat)) : option (arr A) :=
  build sh (fun idx => m idx ≫= aget a).

(** Elementwise operations. *)
Definition amap {A B} (f : A -> B) (a : arr A) : arr B := Arr (shape a) (f <$> data a).
Definition azip {A B C} (f : A -> B -> C) (a : arr A) (b : arr B) : arr C :=
  Arr (shape a) (zip_with f (data a) (data b)).

(** [a.fill(v)] on a fresh array; [np.zeros], [np.ones], ... *)
Definition full {A} (sh : list nat) (v : A) : arr A := Arr sh (replicate (size_of sh) v).

(** * Operations along one axis *)

(** Length of axis [ax]. *)
Definition axlen {A} (a : arr A) (ax : nat) : option nat := shape a !! ax.

(** [np.take(a, ids, ax)] with nonnegative, checked positions. *)
Definition take_pos {A} (a : arr A) (ids : list nat) (ax : nat) : option (arr A) :=
  n ← axlen a ax;
  if decide (Forall (fun i => i < n) ids) then
    gather a (<[ax := length ids]> (shape a))
      (fun idx => k ← idx !! ax; i ← ids !! k; Some (<[ax := i]> idx))
  else None.

(** [a.take(ids, ax)] with Python indices; out of range raises IndexError.
    Simplification: numpy skips the range check when the leading axes are
    empty. *)
Definition np_take {A} (a : arr A) (ids : list Z) (ax : nat) : res (arr A) :=
  n ← of_opt ValueError (axlen a ax);
  ps ← of_opt IndexError (mapM (py_index n) ids);
  of_opt IndexError (take_pos a ps ax).

(** Elements along axis [ax] through [idx] (whose own [ax] entry is ignored). *)
Definition lane {A} (a : arr A) (ax : nat) (idx : list nat) : option (list A) :=
  n ← axlen a ax;
  mapM (fun k => aget a (<[ax := k]> idx)) (seq 0 n).

(** Apply a length preserving function to every lane along [ax]. *)
Definition along {A B} (f : list A -> list B) (a : arr A) (ax : nat) : option (arr B) :=
  build (shape a) (fun idx => l ← lane a ax idx; k ← idx !! ax; f l !! k).

(** Remove / insert an entry at position [ax]. *)
Definition remove_at {A} (ax : nat) (l : list A) : list A := delete ax l.
Definition insert_at {A} (ax : nat) (x : A) (l : list A) : list A := take ax l ++ x :: drop ax l.

(** Reduce every lane along [ax] to one element, removing the axis. *)
Definition reduce {A B} (f : list A -> B) (a : arr A) (ax : nat) : option (arr B) :=
  _ ← axlen a ax;
  build (remove_at ax (shape a)) (fun idx => f <$> lane a ax (insert_at ax 0 idx)).

(** Swap two entries of a list. *)
Definition swap_at {A} (i j : nat) (l : list A) : option (list A) :=
  x ← l !! i; y ← l !! j; Some (<[i := y]> (<[j := x]> l)).

(** * Normalising axis arguments *)

(** Positions for an axis argument, negative counting from the end. *)
Definition norm_axis (nd : nat) (ax : Z) : option nat := py_index nd ax.

(** * dtyped arrays (numpy's ndarray) *)
Record nda := Nda { nd_dtype : dtype; nd_arr : arr val }.
Global Instance nda_eq_dec : EqDecision nda.
Proof. solve_decision. Defined.

Definition nd_shape (x : nda) : list nat := shape (nd_arr x).
Definition nd_ndim (x : nda) : nat := length (nd_shape x).
Definition nd_size (x : nda) : nat := size_of (nd_shape x).

(** A complete array whose elements all have the array's dtype. *)
Definition nda_wf (x : nda) : Prop :=
  arr_wf (nd_arr x) /\ Forall (fun v => has_dtype (nd_dtype x) v = true) (data (nd_arr x)).

(** [x.astype(float)] (for int and bool arrays; identity on floats). *)
Definition astype_float (x : nda) : nda := Nda DFloat (amap val_to_float (nd_arr x)).

Definition with_arr (x : nda) (a : arr val) : nda := Nda (nd_dtype x) a.
