(** Specification of flattening and of the conversions to and from lists. *)
From Verif Require Export SpecIndex.
From Coq Require Import Sorted.

(** The value given last for a label tuple. *)
Definition last_given {K V} (given : list (K * V)) (ls : K) (v : V) : Prop :=
  exists k, given !! k = Some (ls, v) /\ forall k' v', k < k' -> given !! k' <> Some (ls, v').

(** [z] is the table of the given values: along every axis the labels are
    those given, sorted; the value at a label tuple is the one given last, as a
    float, or NaN if none was given. *)
Definition tabulates (given : list (list lab * val)) (z : larry) : Prop :=
  valid z /\ ldtype z = DFloat /\
  (forall p, p ∈ given -> length p.1 = length (llabel z)) /\
  (forall ax l, llabel z !! ax = Some l -> StronglySorted lab_lt l /\
     forall x, x ∈ l <-> exists p, p ∈ given /\ p.1 !! ax = Some x) /\
  (forall ls v, last_given given ls v -> cell z ls = Some (val_to_float v)) /\
  (forall ls, in_grid (llabel z) ls -> (forall p, p ∈ given -> p.1 <> ls) -> cell z ls = Some (VFloat NaN)).

(** [z] holds the cells of [y], as floats, under sorted labels. *)
Definition sorted_copy (y z : larry) : Prop :=
  valid z /\ ldtype z = DFloat /\
  Forall2 (fun l l' => StronglySorted lab_lt l' /\ l' ≡ₚ l) (llabel y) (llabel z) /\
  forall ls v, cell y ls = Some v -> cell z ls = Some (val_to_float v).

(** Numbers: floats, ints and bools. *)
Definition is_numeric (v : val) : Prop := match v with VFloat _ | VInt _ | VBool _ => True | _ => False end.

(** [z] is [y] as a 1d larry with label tuples as labels. *)
Definition flattened (y z : larry) : Prop :=
  valid z /\ ldtype z = ldtype y /\ length (llabel z) = 1 /\
  (forall ls, cell z [LTup ls] = cell y ls) /\
  (forall l, is_Some (cell z [l]) -> exists ls, l = LTup ls).
Definition numeric_dtype (dt : dtype) : Prop := dt = DFloat \/ dt = DInt \/ dt = DBool.
