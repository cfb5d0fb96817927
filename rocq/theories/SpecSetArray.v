(** Specification of the assignment of arrays. *)
From Verif Require Export SpecIndex SpecOps LaneFacts.

(** The array [x], broadcast to the selection with the labels [label] and
    converted to the type [dt], has [w] where the labels are [ls]. *)
Definition array_value (dt : dtype) (x : nda) (label : list (list lab)) (ls : list lab) (w : val) : Prop :=
  exists idx idx' u, labels_at label idx ls /\ broadcast_index (nd_shape x) idx idx' /\ aget (nd_arr x) idx' = Some u /\ store dt u = Ok w.
(** The labels of the true elements of a bool larry, in order. *)
Definition marked (m : larry) : list (list lab) := filter (fun ls => cell m ls = Some (VBool true)) (grid (llabel m)).
(** Every element of [x] can be converted to [dt]. *)
Definition storable (dt : dtype) (x : nda) : Prop := forall i u, aget (nd_arr x) i = Some u -> exists w, store dt u = Ok w.
