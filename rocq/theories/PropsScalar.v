(** C98: kinds of scalars, random strings and the space of archives. *)
From Coq Require Import Ascii.
From Verif Require Import PropsLarry PropsOps PropsNumeric.
From Verif Require Import SpecFacts SpecScalar Scalar ScalarFacts.

(** [isint] is true for the integers of Python and the signed integers of NumPy. *)
Theorem C98_isint_partial : forall py t, isint py t = true <-> integer_type t /\ ~ unsigned_type t.
Proof. exact isint_iff. Qed.
Theorem C98_isint_refuted : exists t, integer_type t /\ forall py, isint py t = false.
Proof. exists (NpUint W1). split; [done|]. by intros []. Qed.
Theorem C98_isfloat : forall py t, isfloat py t = true <-> float_type t.
Proof. exact isfloat_iff. Qed.
Theorem C98_isscalar : forall py t, isscalar py t = true <-> float_type t \/ (integer_type t /\ ~ unsigned_type t).
Proof. exact isscalar_iff. Qed.
Theorem C98_int_or_float : forall py t, ~ (isint py t = true /\ isfloat py t = true).
Proof. exact isint_not_float. Qed.
Theorem C98_isstring : forall py t, isstring py t = true <-> t = PyStr \/ (py = Py2 /\ t = NpString) \/ (py = Py3 /\ t = NpUnicode).
Proof. exact isstring_iff. Qed.
(** The tables in the documentation. *)
Example C98_tables_ex : forall py,
  isint py <$> [PyInt; NpInt W4; NpInt W8; PyFloat; NpFloat W4; NpFloat W8; PyComplex; PyStr; PyBool] = [true; true; true; false; false; false; false; false; false] /\
  isfloat py <$> [PyInt; NpInt W4; NpInt W8; PyFloat; NpFloat W4; NpFloat W8; PyComplex; PyStr; PyBool] = [false; false; false; true; true; true; false; false; false] /\
  isscalar py <$> [PyInt; NpInt W4; NpInt W8; PyFloat; NpFloat W4; NpFloat W8; PyComplex; PyStr; PyBool] = [true; true; true; true; true; true; false; false; false] /\
  isstring py <$> [PyInt; PyStr; PyBool; PyNone] = [false; true; false; false].
Proof. by intros []. Qed.

(** [y[v]] and [y.lix[v]] are [y[z]] and [y.lix[z]] for [z] the number [v]
    without its fraction; other scalars are refused, unsigned integers too. *)
Theorem C98_index_partial : forall py y t q, float_type t \/ (integer_type t /\ ~ unsigned_type t) ->
  exists z, truncated q z /\ getitem_scalar py y (Scalar t (Fin q)) = larry_getitem y (XInt z) /\ lix_scalar py y (Scalar t (Fin q)) = lix_get y (LxInt z).
Proof. exact getitem_scalar_ok. Qed.
Theorem C98_index_integer_partial : forall py y t z, float_type t \/ (integer_type t /\ ~ unsigned_type t) ->
  getitem_scalar py y (Scalar t (num_of_Z z)) = larry_getitem y (XInt z) /\ lix_scalar py y (Scalar t (num_of_Z z)) = lix_get y (LxInt z).
Proof. exact getitem_scalar_Z. Qed.
Theorem C98_index_other : forall py y v, ~ float_type (sc_type v) -> ~ integer_type (sc_type v) \/ unsigned_type (sc_type v) ->
  getitem_scalar py y v = Err IndexError.
Proof. exact getitem_scalar_err. Qed.
Theorem C98_index_refuted : exists py y t z g, valid y /\ integer_type t /\ larry_getitem y (XInt z) = Ok g /\
  getitem_scalar py y (Scalar t (num_of_Z z)) = Err IndexError.
Proof. exists Py2, exv, (NpUint W8), 1%Z, (GLar (Larry (Nda DFloat (Arr [3] [vf 4; VFloat NaN; vf 6])) [[LInt 1; LInt 2; LInt 3]])). split_and!; [solve_valid|done|by vm_compute|by vm_compute]. Qed.
Example C98_index_ex :
  getitem_scalar Py2 exv (Scalar PyFloat (Fin (Qc_of_Z 3 / Qc_of_Z 2))) = larry_getitem exv (XInt 1) /\
  getitem_scalar Py2 exv (Scalar (NpInt W2) (num_of_Z (-1))) = larry_getitem exv (XInt (-1)) /\
  getitem_scalar Py2 exv (Scalar PyFloat (Fin (- (Qc_of_Z 1 / Qc_of_Z 2)))) = larry_getitem exv (XInt 0) /\
  getitem_scalar Py2 exv (Scalar PyFloat NaN) = Err ValueError /\
  getitem_scalar Py2 exv (Scalar PyBool (num_of_Z 1)) = Err IndexError /\
  lix_scalar Py2 exv (Scalar PyInt (num_of_Z 1)) = larry_getitem exv (XInt 1).
Proof. by_compute. Qed.

(** A random string has the length asked for and consists of letters and digits;
    every such string can be drawn. *)
Theorem C98_randstring : forall d n, (forall i nc, d i nc <= nc) -> exists s, randstring d n = Ok s /\ Z.of_nat (length s) = Z.max n 0 /\ Forall alnum s /\
  forall i, i < length s -> s !! i = letters !! d i 61.
Proof. exact randstring_ok. Qed.
Theorem C98_randstring_any : forall s, Forall alnum s -> exists d, (forall i nc, d i nc <= nc) /\ randstring d (Z.of_nat (length s)) = Ok s.
Proof. exact randstring_onto. Qed.
Example C98_randstring_ex :
  string_of_list_ascii <$> randstring (fun i nc => if decide (i = 1) then nc else 7 * i) 4 = Ok "a9ov"%string /\ randstring (fun _ nc => nc) (-3) = Ok [].
Proof. by_compute. Qed.

(** The free space and the storage of all datasets, each counted once at
    whatever depth, make up the space of the archive. *)
Theorem C98_freespace : forall space bytes f ps, distinct_names f -> NoDup ps.*1 -> (forall p n, (p, n) ∈ ps <-> dataset_at f p n) ->
  (io_freespace space bytes f + fold_right Z.add 0 (map (fun q => bytes q.2) ps))%Z = space f.
Proof. exact freespace_ok. Qed.
Theorem C98_datasets : forall f, distinct_names f -> exists ps : list (list string * node), NoDup ps.*1 /\ (forall p n, (p, n) ∈ ps <-> dataset_at f p n).
Proof. exact freespace_paths. Qed.
Example C98_freespace_ex :
  let f := NGroup false [("a", NGroup true [("x", NX (Nda DFloat (Arr [2] [vf 1; vf 2]))); ("0", NLabel (AInts [5; 6]%Z) (Some NotDatetime))]);
                         ("g", NGroup false [("b", NGroup true [("x", NX (Nda DFloat (Arr [0] [])))])])]%string in
  let bytes n := match n with NX x => (8 * Z.of_nat (length (data (nd_arr x))))%Z | NLabel _ _ => 16%Z | _ => 0%Z end in
  io_freespace (fun _ => 2000%Z) bytes f = 1968%Z /\ node_get f ["a"; "x"]%string = Some (NX (Nda DFloat (Arr [2] [vf 1; vf 2]))).
Proof. cbv zeta. split; by vm_compute. Qed.

Print Assumptions C98_isint_partial.
Print Assumptions C98_isint_refuted.
Print Assumptions C98_isfloat.
Print Assumptions C98_isscalar.
Print Assumptions C98_int_or_float.
Print Assumptions C98_isstring.
Print Assumptions C98_index_partial.
Print Assumptions C98_index_integer_partial.
Print Assumptions C98_index_other.
Print Assumptions C98_index_refuted.
Print Assumptions C98_randstring.
Print Assumptions C98_randstring_any.
Print Assumptions C98_freespace.
Print Assumptions C98_datasets.
