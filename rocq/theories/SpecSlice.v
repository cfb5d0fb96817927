(** Specification of positions and slices, after the Python documentation. *)
From Verif Require Export Base.
From Coq Require Export Sorting.

(** Integer [z] means position [i] of [n]. *)
Definition means (n : nat) (z : Z) (i : nat) : Prop := i < n /\ (z = Z.of_nat i \/ z = Z.of_nat i - Z.of_nat n)%Z.
(** A bound counted from the end if negative. *)
Definition from_end (n : nat) (z : Z) : Z := if decide (z < 0)%Z then (z + Z.of_nat n)%Z else z.
(** Upwards from [start], which is the first position unless given and not
    before it, in steps of [k], up to but without [stop]. *)
Definition upward (n : nat) (start stop : option Z) (k : Z) (i : nat) : Prop :=
  let first := match start with None => 0%Z | Some z => Z.max 0 (from_end n z) end in
  i < n /\ (first <= Z.of_nat i)%Z /\ (k | Z.of_nat i - first)%Z /\
  match stop with None => True | Some z => (Z.of_nat i < from_end n z)%Z end.
(** Downwards from [start], which is the last position unless given and not
    behind it. *)
Definition downward (n : nat) (start stop : option Z) (k : Z) (i : nat) : Prop :=
  let first := match start with None => (Z.of_nat n - 1)%Z | Some z => Z.min (Z.of_nat n - 1) (from_end n z) end in
  i < n /\ (Z.of_nat i <= first)%Z /\ (k | first - Z.of_nat i)%Z /\
  match stop with None => True | Some z => (from_end n z < Z.of_nat i)%Z end.
(** The positions in [slice(start, stop, step)], in order. *)
Definition slice_takes (s : slice) (n : nat) (ps : list nat) : Prop :=
  match s_step s with
  | None => StronglySorted lt ps /\ forall i, i ∈ ps <-> upward n (s_start s) (s_stop s) 1 i
  | Some k =>
      (0 < k)%Z /\ StronglySorted lt ps /\ (forall i, i ∈ ps <-> upward n (s_start s) (s_stop s) k i) \/
      (k < 0)%Z /\ StronglySorted gt ps /\ (forall i, i ∈ ps <-> downward n (s_start s) (s_stop s) (- k) i)
  end.
