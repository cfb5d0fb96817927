(** Specification of unique elements. *)
From Verif Require Export SpecCreate.
From Coq Require Export Sorted.

(** The positions of [vs] in sorted order, equal elements in the order in which
    they occur. *)
Definition argsorts_stable (vs : list val) (idx : list nat) : Prop :=
  argsorts vs idx /\
  forall a b i j v, a < b -> idx !! a = Some i -> idx !! b = Some j -> vs !! i = Some v -> vs !! j = Some v -> i < j.
(** [us] are the elements of [vs] in order; each occurs once, except NaN, which
    occurs as often as in [vs]. *)
Definition unique_of (vs us : list val) : Prop :=
  StronglySorted val_le us /\ (forall v, v ∈ us <-> v ∈ vs) /\
  NoDup (filter (fun v => v <> VFloat NaN) us) /\
  length (filter (fun v => v = VFloat NaN) us) = length (filter (fun v => v = VFloat NaN) vs).
