(** Specification of shuffling and of the resampling iterators. *)
From Verif Require Export SpecIndex.

(** [z] holds the data of [y] with whole slices moved: along each axis the
    slice at position [i] comes from position [ps !! i]. *)
Definition data_permuted (y z : larry) (pss : list (list nat)) : Prop :=
  valid z /\ llabel z = llabel y /\ ldtype z = ldtype y /\
  Forall2 (fun ps l => ps ≡ₚ seq 0 (length l)) pss (llabel y) /\
  forall idx idx' ls ls', labels_at (llabel y) idx ls -> labels_at (llabel y) idx' ls' ->
    Forall3 (fun ps i i' => ps !! i = Some i') pss idx idx' -> cell z ls = cell y ls'.
(** Only the slices along the selected axes move. *)
Definition only_selected (y : larry) (axis : option Z) (pss : list (list nat)) : Prop :=
  forall ax ps, pss !! ax = Some ps -> ~ axis_selected y axis ax -> ps = seq 0 (length ps).
(** [z] holds the labels of [y] permuted along the selected axes. *)
Definition labels_permuted (y z : larry) (axis : option Z) : Prop :=
  length (llabel z) = length (llabel y) /\
  forall ax l l', llabel y !! ax = Some l -> llabel z !! ax = Some l' ->
    l' ≡ₚ l /\ (~ axis_selected y axis ax -> l' = l).

(** Random numbers: the [i]-th call for a number in 0..i. *)
Definition good_draws (d : nat -> nat) : Prop := forall i, d i <= i.

(** Labels numpy 1.6-1.8 can exchange: once the first label has a length the
    others are sliced, which numbers and dates do not allow. *)
Definition has_slices (l : lab) : Prop := match l with LStr _ | LTup _ => True | _ => False end.
Definition has_length (l : lab) : Prop :=
  match l with LStr s => s <> EmptyString | LTup t => t <> [] | _ => False end.
Definition exchangeable (l : list lab) : Prop :=
  forall a, l !! 0 = Some a -> has_length a -> Forall has_slices l.

(** A division of 0..n-1 into folds. *)
Definition is_folds (n kfold : nat) (folds : list (list nat * list nat)) : Prop :=
  length folds = kfold /\
  concat folds.*2 ≡ₚ seq 0 n /\
  (forall k train test, folds !! k = Some (train, test) ->
     test <> [] /\ train ++ test ≡ₚ seq 0 n /\
     length test = n / kfold + (if decide (k = kfold - 1) then n mod kfold else 0)).

(** A bootstrap sample: [n] indices below [n] and those left out. *)
Definition is_sample (n : nat) (p : list nat * list nat) : Prop :=
  length p.1 = n /\ (forall i, i ∈ p.1 -> i < n) /\
  NoDup p.2 /\ p.2 <> [] /\ (forall i, i ∈ p.2 <-> i < n /\ i ∉ p.1).
(** [randint(0, n, n)]: the [k]-th call returns [draw k]. *)
Definition good_randint (n : nat) (draw : nat -> list nat) : Prop :=
  forall k, length (draw k) = n /\ forall i, i ∈ draw k -> i < n.
(** Some index is left out. *)
Definition leaves_out (n : nat) (train : list nat) : Prop := exists i, i < n /\ i ∉ train.
