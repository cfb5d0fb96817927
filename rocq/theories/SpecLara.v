(** What an archived larry can be indexed with. *)
From Verif Require Export SpecIndex SpecArchive.

(** Positions in increasing order, counted from the start. *)
Definition rising (zs : list Z) : Prop :=
  (forall z, z ∈ zs -> (0 <= z)%Z) /\
  forall i j a b, i < j -> zs !! i = Some a -> zs !! j = Some b -> (a < b)%Z.
Definition forward (it : item) : Prop :=
  match it with
  | ISlice s => (1 <= default 1 (s_step s))%Z
  | IList zs => rising zs
  | _ => True
  end.
(** The forms of the index; a list, an array or a larry that is not in a tuple
    is none of them. *)
Definition no_sequence (ix : subscript) : Prop := match ix with XInt _ | XSlice _ | XTuple _ => True | _ => False end.
(** No axis of the result is empty. *)
Definition selects_some (ss : list sel) : Prop := forall l, l ∈ sel_labels ss -> l <> [].
(** All that h5py can read and write. *)
Definition h5_accepts (label : list (list lab)) (items : list item) (ss : list sel) : Prop :=
  Forall forward items /\ one_list items /\ selects_all label items ss /\ selects_some ss.
(** A bool array that is not in a tuple must have the shape of the data. *)
Definition bools_fit (sh : list nat) (ix : subscript) : Prop := match ix with XBools bs => sh = [length bs] | _ => True end.
Global Instance bools_fit_dec sh ix : Decision (bools_fit sh ix).
Proof. destruct ix; simpl; apply _. Defined.
