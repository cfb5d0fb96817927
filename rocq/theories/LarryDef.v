(** The larry type: la/deflarry.py:18-138. *)
From Verif Require Export Lab NDArray.

(** A larry is a numpy array [x] with one label list per axis ([self.x],
    [self.label]: la/deflarry.py:137-138). *)
Record larry := Larry { lx : nda; llabel : list (list lab) }.
Global Instance larry_eq_dec : EqDecision larry.
Proof. solve_decision. Defined.

(** Shorthands for the properties at la/deflarry.py:4098-4153. *)
Definition larr (y : larry) : arr val := nd_arr (lx y).
Definition ldtype (y : larry) : dtype := nd_dtype (lx y).
Definition lshape (y : larry) : list nat := nd_shape (lx y).
Definition lndim (y : larry) : nat := length (lshape y).
Definition lsize (y : larry) : nat := size_of (lshape y).

(** * Join methods of la/flarry.py *)
Inductive join_type := JInner | JOuter | JLeft | JRight | JSkip | JBad.
Global Instance join_eq_dec : EqDecision join_type.
Proof. solve_decision. Defined.
(** The [join] argument: one string for all axes or a list of strings; any
    other type is [JOther]. *)
Inductive join_arg := JOne (j : join_type) | JList (js : list join_type) | JOther.
