(** la/util/misc.py: the type tests and randstring; larrys indexed by one scalar. *)
From Verif Require Export Index Ops.
From Verif Require Export SpecScalar.
From Coq Require Import Ascii.

(** * Classes *)
(** The classes of NumPy (1.6 to 1.8).  Simplification: datetime64 and
    timedelta64, whose place differs between the versions, are left out. *)
Inductive cls :=
  | KGeneric | KNumber | KInteger | KSigned | KUnsigned | KInexact | KFloating | KComplex | KFlexible | KCharacter
  | KInt (w : width) | KUint (w : width) | KFloat (w : width) | KCplx (w : width) | KBool | KString | KUnicode | KVoid | KObj.
#[global] Instance width_dec : EqDecision width.
Proof. solve_decision. Defined.
#[global] Instance cls_dec : EqDecision cls.
Proof. solve_decision. Defined.
(** The first base of a class among the classes of NumPy. *)
Definition base (c : cls) : option cls :=
  match c with
  | KGeneric => None
  | KNumber | KFlexible | KBool | KObj => Some KGeneric
  | KInteger | KInexact => Some KNumber
  | KSigned | KUnsigned => Some KInteger
  | KFloating | KComplex => Some KInexact
  | KCharacter | KVoid => Some KFlexible
  | KString | KUnicode => Some KCharacter
  | KInt _ => Some KSigned
  | KUint _ => Some KUnsigned
  | KFloat _ => Some KFloating
  | KCplx _ => Some KComplex
  end.
(** [cls.mro()] restricted to these classes; Python's classes among the bases of
    the numbers come after them.  The hierarchy is five classes deep. *)
Fixpoint mro_from (fuel : nat) (c : cls) : list cls :=
  c :: match fuel, base c with S fuel, Some d => mro_from fuel d | _, _ => [] end.
Definition mro (c : cls) : list cls := mro_from 5 c.
Definition issubclass (c d : cls) : bool := bool_decide (d ∈ mro c).
(** [numpy.dtype(t).type] of a type [t]. *)
Definition dtype_type (py : python) (t : stype) : cls :=
  match t with
  | PyInt | PyLong => KInt W8
  | PyFloat => KFloat W8
  | PyComplex => KCplx W16
  | PyBool | NpBool => KBool
  | PyStr => match py with Py2 => KString | Py3 => KUnicode end
  | PyUnicode => KUnicode
  | PyBytes => KString
  | PyNone | PyOther | NpObject => KObj
  | NpInt w => KInt w
  | NpUint w => KUint w
  | NpFloat w => KFloat w
  | NpComplex w => KCplx w
  | NpString => KString
  | NpUnicode => KUnicode
  | NpVoid => KVoid
  end.
(** [numpy.issubdtype(arg1, arg2)] for Python's [int] and [float] as [arg2]: the
    second class of the mro is taken. *)
Definition issubdtype (py : python) (arg1 arg2 : stype) : bool :=
  let val := match mro (dtype_type py arg2) with _ :: c :: _ => c | [c] => c | [] => KGeneric end in
  issubclass (dtype_type py arg1) val.
(** [isint]: la/util/misc.py:22-60.  The argument is the type of [x]. *)
Definition isint (py : python) (t : stype) : bool := issubdtype py t PyInt.
(** [isfloat]: la/util/misc.py:62-100. *)
Definition isfloat (py : python) (t : stype) : bool := issubdtype py t PyFloat.
(** [isscalar]: la/util/misc.py:102-155. *)
Definition isscalar (py : python) (t : stype) : bool := isfloat py t || isint py t.
(** [isstring]: la/util/misc.py:157-159.  [str] is a base of [numpy.string_] in
    Python 2 and of [numpy.unicode_] in Python 3. *)
Definition isstring (py : python) (t : stype) : bool :=
  match t, py with
  | PyStr, _ | NpString, Py2 | NpUnicode, Py3 => true
  | _, _ => false
  end.

(** * Random strings *)
(** [C]: la/util/misc.py:10. *)
Definition letters : list ascii := list_ascii_of_string "abcdefghijklmnopqrstuvwxyzABCDEFGHIJKLMNOPQRSTUVWXYZ0123456789".
(** [randstring]: la/util/misc.py:11-18.  [d i nc] is the [i]-th number drawn by
    [random.randint(0, nc)]. *)
Definition randstring (d : nat -> nat -> nat) (n : Z) : res (list ascii) :=
  let nc := length letters - 1 in
  mapR (fun i => of_opt IndexError (letters !! d i nc)) (seq 0 (Z.to_nat n)).

(** * Indexing by one scalar *)
(** [int(x)].  Simplification: the OverflowError of infinities counts as
    ValueError. *)
Definition py_int (n : num) : res Z := match n with Fin q => Ok (Qc_trunc q) | _ => Err ValueError end.
(** [y[index]] for a scalar: la/deflarry.py:1753-1763 and 1879-1882. *)
Definition getitem_scalar (py : python) (y : larry) (index : scalar) : res gres :=
  if isscalar py (sc_type index) then z ← py_int (sc_num index); larry_getitem y (XInt z)
  else Err IndexError.
(** [y.lix[index]] for a scalar: la/deflarry.py:5027-5036 and 5070-5074. *)
Definition lix_scalar (py : python) (y : larry) (index : scalar) : res gres :=
  if decide (lshape y = [0]) then Ok (GLar y)
  else if decide (0 ∈ lshape y) then Err ValueError
  else if isscalar py (sc_type index) then getitem_scalar py y index
  else Err IndexError.

(** * Space *)
(** [visititems(sizefinder)]: la/io.py:231-239.  [bytes n] is the storage of the
    dataset [n]. *)
Fixpoint storage (bytes : node -> Z) (n : node) : Z :=
  match n with
  | NGroup _ ms => fold_right Z.add 0%Z (map (fun p => match p.2 with NGroup _ _ => storage bytes p.2 | _ => bytes p.2 end) ms)
  | _ => 0
  end.
(** [IO.freespace]: la/io.py:228-242.  [space f] is the size of the file
    ([IO.space], la/io.py:220-226). *)
Definition io_freespace (space : node -> Z) (bytes : node -> Z) (f : node) : Z := (space f - storage bytes f)%Z.
