(** Kinds of scalars, independent of NumPy's classes. *)
From Verif Require Export SpecAstype Archive.
From Coq Require Import Ascii.

(** The size of a number in bytes (of a complex number: of one part). *)
Inductive width := W1 | W2 | W4 | W8 | W16.
(** The types of scalars.  [PyLong] and [PyUnicode] are [long] and [unicode] of
    Python 2, [PyBytes] is [bytes] of Python 3; [PyOther] is any class that is
    neither a scalar type of Python or NumPy nor derived from one. *)
Inductive stype :=
  | PyInt | PyLong | PyFloat | PyComplex | PyBool | PyStr | PyUnicode | PyBytes | PyNone | PyOther
  | NpInt (w : width) | NpUint (w : width) | NpFloat (w : width) | NpComplex (w : width) | NpBool | NpString | NpUnicode | NpVoid | NpObject.

(** Integers and floats, as the documentation means them. *)
Definition integer_type (t : stype) : Prop := match t with PyInt | PyLong | NpInt _ | NpUint _ => True | _ => False end.
Definition unsigned_type (t : stype) : Prop := match t with NpUint _ => True | _ => False end.
Definition float_type (t : stype) : Prop := match t with PyFloat | NpFloat _ => True | _ => False end.
(** A scalar: its type and its (real) number, if it has one. *)
Record scalar := Scalar { sc_type : stype; sc_num : num }.
(** Letters and digits. *)
Definition alnum (c : ascii) : Prop :=
  let n := Ascii.nat_of_ascii c in (97 <= n <= 122) \/ (65 <= n <= 90) \/ (48 <= n <= 57).

(** * Storage *)
(** A path of an archive that leads to a dataset. *)
Definition is_dataset (n : node) : Prop := match n with NX _ | NLabel _ _ => True | NGroup _ _ => False end.
Definition dataset_at (f : node) (p : list string) (n : node) : Prop := p <> [] /\ node_get f p = Some n /\ is_dataset n.
(** The names in a group are distinct, at every depth. *)
Definition distinct_names (f : node) : Prop := forall p a ms, node_get f p = Some (NGroup a ms) -> NoDup ms.*1.
