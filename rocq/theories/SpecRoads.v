(** Specification for different calls with the same result. *)
From Verif Require Export SpecIndex.

(** [y[i]], [y[:, i]], [y[:, :, i]], ... *)
Definition at_axis (ax : nat) (it : item) : subscript :=
  match ax, it with
  | 0, IInt z => XInt z
  | _, _ => XTuple (replicate ax (ISlice slice_all) ++ [it])
  end.
(** The positions [zs] are those of the labels [ls]. *)
Definition positions_of (y : larry) (zs : list Z) (ls : list lab) : Prop :=
  Forall3 (fun l z x => py_get l z = Some x) (llabel y) zs ls.
(** Two scalars, or larrys with the same labels, with related values. *)
Definition related_out (R : val -> val -> Prop) (o o' : out) : Prop :=
  match o, o' with
  | OVal v, OVal w => R v w
  | OLar z, OLar z' => valid z /\ valid z' /\ llabel z' = llabel z /\
      forall ls v, cell z ls = Some v -> exists w, cell z' ls = Some w /\ R v w
  | _, _ => False
  end.
Definition opposite_bool (v w : val) : Prop := exists b, v = VBool b /\ w = VBool (negb b).
Definition opposite_num (v w : val) : Prop := exists n, to_num v = Some n /\ to_num w = Some (num_neg n).
