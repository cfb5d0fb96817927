(** Python basics used by every part of the model: exceptions as values,
    list indexing with negative indices, slices, sets and dictionaries. *)
From stdpp Require Export base decidable list list_numbers numbers option.
From stdpp Require Export strings.
From Coq Require Export ZArith Lia.

Global Set Default Proof Using "Type".
Global Generalizable All Variables.

(** * Exceptions as values

    The exception classes raised by the modelled code. *)
Inductive exn :=
  | ValueError | IndexError | TypeError | KeyError | RuntimeError
  | NotImplementedError | AttributeError | OSError | StopIteration | CsvError.

Inductive res (A : Type) :=
  | Ok (a : A)
  | Err (e : exn).
Global Arguments Ok {_} _.
Global Arguments Err {_} _.

Global Instance exn_eq_dec : EqDecision exn.
Proof. solve_decision. Defined.
Global Instance res_eq_dec `{EqDecision A} : EqDecision (res A).
Proof. solve_decision. Defined.

Global Instance res_ret : MRet res := fun A a => Ok a.
Global Instance res_bind : MBind res := fun A B f r =>
  match r with Ok a => f a | Err e => Err e end.
Global Instance res_fmap : FMap res := fun A B f r =>
  match r with Ok a => Ok (f a) | Err e => Err e end.

(** Turn a failed lookup into an exception. *)
Definition of_opt {A} (e : exn) (o : option A) : res A :=
  match o with Some a => Ok a | None => Err e end.

Definition guard_res (b : bool) (e : exn) : res unit :=
  if b then Ok () else Err e.

(** Python's [for] loop whose body may raise. *)
Fixpoint foldM {S X} (f : S -> X -> res S) (s : S) (l : list X) : res S :=
  match l with
  | [] => Ok s
  | x :: l' => match f s x with Ok s' => foldM f s' l' | Err e => Err e end
  end.

(** Python's list comprehension whose body may raise: stops at the first
    exception. *)
Fixpoint mapR {X Y} (f : X -> res Y) (l : list X) : res (list Y) :=
  match l with
  | [] => Ok []
  | x :: l' =>
      match f x with
      | Ok y => match mapR f l' with Ok ys => Ok (y :: ys) | Err e => Err e end
      | Err e => Err e
      end
  end.

(** * Integer indices

    [py_index n z] is the position Python and numpy mean by index [z] into
    something of length [n]: negative indices count from the end; [None] is
    "index out of range". *)
Definition py_index (n : nat) (z : Z) : option nat :=
  if decide (0 <= z < Z.of_nat n)%Z then Some (Z.to_nat z)
  else if decide (- Z.of_nat n <= z < 0)%Z then Some (Z.to_nat (Z.of_nat n + z))
  else None.

(** [l[z]] for a Python list. *)
Definition py_get {A} (l : list A) (z : Z) : option A :=
  py_index (length l) z ≫= (l !!.).

(** * Slices

    [slice(start, stop, step)]; absent fields are [None].  The positions
    selected in a sequence of length [n] are those of CPython's
    [PySlice_AdjustIndices] (numpy uses the same rule). *)
Record slice := Slice { s_start : option Z; s_stop : option Z; s_step : option Z }.

Definition slice_all : slice := Slice None None None.

Definition slice_clamp (lower upper len : Z) (z : Z) : Z :=
  let z := (if (z <? 0) then z + len else z)%Z in
  (if z <? lower then lower else if upper <? z then upper else z)%Z.

Definition slice_positions (s : slice) (n : nat) : res (list nat) :=
  let len := Z.of_nat n in
  let step := default 1%Z (s_step s) in
  if decide (step = 0%Z) then Err ValueError
  else
    let lower := (if step <? 0 then -1 else 0)%Z in
    let upper := (if step <? 0 then len - 1 else len)%Z in
    let start := match s_start s with
                 | None => if (step <? 0)%Z then upper else lower
                 | Some z => slice_clamp lower upper len z
                 end in
    let stop := match s_stop s with
                | None => if (step <? 0)%Z then lower else upper
                | Some z => slice_clamp lower upper len z
                end in
    let count := (if step <? 0
                  then (if stop <? start then (start - stop - 1) / (- step) + 1 else 0)
                  else (if start <? stop then (stop - start - 1) / step + 1 else 0))%Z in
    Ok ((fun k => Z.to_nat (start + Z.of_nat k * step)) <$> seq 0 (Z.to_nat count)).

(** [l[s]] for a Python list [l] and slice [s]. *)
Definition py_slice {A} (s : slice) (l : list A) : res (list A) :=
  ps ← slice_positions s (length l);
  of_opt IndexError (mapM (l !!.) ps).

(** * Sets and dictionaries

    [len(frozenset(l)) == len(l)]: Python's duplicate test. *)
Definition py_nodup `{EqDecision A} (l : list A) : bool :=
  bool_decide (length (remove_dups l) = length l).

(** A dictionary as an association list in insertion order; assigning an
    existing key keeps its place. *)
Definition pydict (K V : Type) := list (K * V).

Fixpoint dict_set `{EqDecision K} {V} (k : K) (v : V) (d : pydict K V) : pydict K V :=
  match d with
  | [] => [(k, v)]
  | (k', v') :: d' => if decide (k = k') then (k', v) :: d' else (k', v') :: dict_set k v d'
  end.

Fixpoint dict_get `{EqDecision K} {V} (d : pydict K V) (k : K) : option V :=
  match d with
  | [] => None
  | (k', v') :: d' => if decide (k = k') then Some v' else dict_get d' k
  end.

(** [dict(zip(ks, vs))]. *)
Definition dict_zip `{EqDecision K} {V} (ks : list K) (vs : list V) : pydict K V :=
  fold_left (fun d p => dict_set p.1 p.2 d) (zip ks vs) [].

(** [l.index(x)]: first position of [x]. *)
Fixpoint index_of `{EqDecision A} (x : A) (l : list A) : option nat :=
  match l with
  | [] => None
  | y :: l' => if decide (x = y) then Some 0 else S <$> index_of x l'
  end.
