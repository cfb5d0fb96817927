(** Specification of the numeric methods: accumulations, reductions, clip and
    the methods that look at missing values. *)
From Verif Require Export SpecOps Larry.
From Coq Require Import Sorted.

(** [vs] are the values of [y] along axis [ax], in the order of its labels;
    [ls] gives the labels of the other axes. *)
Definition with_label (ax : nat) (x : lab) (ls : list lab) : list lab := take ax ls ++ x :: drop ax ls.
Definition lane_of (y : larry) (ax : nat) (ls : list lab) (vs : list val) : Prop :=
  exists l, llabel y !! ax = Some l /\ Forall2 (fun x v => cell y (with_label ax x ls) = Some v) l vs.

(** [vs] are all values of [y], each cell once. *)
Definition values_of (y : larry) (vs : list val) : Prop :=
  exists ts, NoDup ts /\ (forall ls, ls ∈ ts <-> in_grid (llabel y) ls) /\
    Forall2 (fun ls v => cell y ls = Some v) ts vs.

(** [vs] read as numbers. *)
Definition numbers (vs : list val) (ns : list num) : Prop := Forall2 (fun v n => to_num v = Some n) vs ns.
(** Without the NaNs. *)
Definition present (ns : list num) : list num := filter (fun n => n <> NaN) ns.

Definition num_total (ns : list num) : num := foldr num_add (num_of_Z 0) ns.
Definition num_product (ns : list num) : num := foldr num_mul (num_of_Z 1) ns.

(** The reductions.  [RVar ddof] is the variance with divisor [N - ddof]. *)
Inductive red_op := RSum | RProd | RMean | RMedian | RVar (ddof : Z) | RMax | RMin | RAny | RAll.
Global Instance red_op_eq_dec : EqDecision red_op.
Proof. solve_decision. Defined.

Definition num_le (a b : num) : Prop := num_lt a b \/ num_same a b.

(** [m] is the median of [ns]: the middle of the sorted numbers, or the mean
    of the two middle ones. *)
Definition median_of (ns : list num) (m : num) : Prop :=
  exists s, Permutation s ns /\ StronglySorted num_le s /\
    if decide (length ns mod 2 = 1) then s !! (length ns / 2) = Some m
    else exists a b, s !! (length ns / 2 - 1) = Some a /\ s !! (length ns / 2) = Some b /\
         m = num_div (num_add a b) (num_of_Z 2).

Definition mean_of (ns : list num) : num := num_div (num_total ns) (num_of_nat (length ns)).

(** [m] is the reduction of the numbers [ns] (none of them NaN, at least one). *)
Definition reduced (op : red_op) (ns : list num) (m : num) : Prop :=
  match op with
  | RSum => m = num_total ns
  | RProd => m = num_product ns
  | RMean => m = mean_of ns
  | RMedian => median_of ns m
  | RVar ddof =>
      m = num_div (num_total ((fun n => num_mul (num_sub n (mean_of ns)) (num_sub n (mean_of ns))) <$> ns))
                  (num_of_Z (Z.of_nat (length ns) - ddof))
  | RMax => m ∈ ns /\ forall n, n ∈ ns -> num_le n m
  | RMin => m ∈ ns /\ forall n, n ∈ ns -> num_le m n
  | RAny | RAll => False
  end.

(** [v] is the reduction of the values [vs]: NaNs are skipped, and the result
    is NaN if nothing else is there.  For any and all NaN counts as true, as
    the documentation says (la/deflarry.py:1513, 1559). *)
Definition reduces (op : red_op) (vs : list val) (v : val) : Prop :=
  match op with
  | RAny => v = VBool true /\ (exists u, u ∈ vs /\ val_truth u = true) \/
            v = VBool false /\ (forall u, u ∈ vs -> val_truth u = false)
  | RAll => v = VBool true /\ (forall u, u ∈ vs -> val_truth u = true) \/
            v = VBool false /\ (exists u, u ∈ vs /\ val_truth u = false)
  | _ => exists ns m, numbers vs ns /\ to_num v = Some m /\
         if decide (present ns = []) then m = NaN else reduced op (present ns) m
  end.

(** The value of a reduction of nothing. *)
Definition red_default (op : red_op) : val :=
  match op with RAny => VBool false | RAll => VBool true | _ => VFloat NaN end.

(** [v] is the running reduction at position [k] of [vs]: NaN stays NaN. *)
Inductive cum_op := CSum | CProd.
Definition accumulates (op : cum_op) (vs : list val) (k : nat) (v : val) : Prop :=
  exists ns n m, numbers vs ns /\ ns !! k = Some n /\ to_num v = Some m /\
    m = if decide (n = NaN) then NaN
        else match op with
             | CSum => num_total (present (take (S k) ns))
             | CProd => num_product (present (take (S k) ns))
             end.

(** [m] is [n] moved into the interval from [lo] to [hi]. *)
Definition clipped (lo hi n m : num) : Prop :=
  (n = NaN -> m = NaN) /\
  (num_lt n lo -> m = lo) /\ (num_lt hi n -> m = hi) /\
  (num_le lo n -> num_le n hi -> m = n).

(** A finite cell. *)
Definition finite_val (v : val) : Prop := exists q, to_num v = Some (Fin q).
Definition finite_at (y : larry) (ls : list lab) : Prop :=
  exists v, cell y ls = Some v /\ finite_val v.

(** [P] holds for exactly [n] label tuples. *)
Definition counts (P : list lab -> Prop) (n : nat) : Prop :=
  exists ts, NoDup ts /\ length ts = n /\ forall ls, ls ∈ ts <-> P ls.

(** [l'] is [l] restricted to the labels satisfying [P], in the same order. *)
Inductive kept (P : lab -> Prop) : list lab -> list lab -> Prop :=
  | kept_nil : kept P [] []
  | kept_yes x l l' : P x -> kept P l l' -> kept P (x :: l) (x :: l')
  | kept_no x l l' : ~ P x -> kept P l l' -> kept P (x :: l) l'.

(** The axis argument of vacuum. *)
Inductive axes_arg := AxNone | AxInt (a : Z) | AxTuple (l : list Z).

(** [v] is the element at position [k] of [vs] after filling forward at most
    [n] positions: a finite element stays, any other becomes the last finite
    element before it if that is at most [n] positions back, NaN otherwise. *)
Definition pushed (n : Z) (vs : list val) (k : nat) (v : val) : Prop :=
  exists u, vs !! k = Some u /\
  (finite_val u /\ v = u \/
   ~ finite_val u /\
   ((exists j, j < k /\ (Z.of_nat k - Z.of_nat j <= n)%Z /\ vs !! j = Some v /\ finite_val v /\
       forall i w, j < i < k -> vs !! i = Some w -> ~ finite_val w) \/
    v = VFloat NaN /\
    forall j w, j < k -> (Z.of_nat k - Z.of_nat j <= n)%Z -> vs !! j = Some w -> ~ finite_val w)).

(** [vs] are the values of [y] along axis [ax] through the cell [ls], which is
    at position [k] among them. *)
Definition in_lane (y : larry) (ax : nat) (ls : list lab) (vs : list val) (k : nat) : Prop :=
  lane_of y ax (delete ax ls) vs /\
  exists l x, llabel y !! ax = Some l /\ ls !! ax = Some x /\ l !! k = Some x.

(** [o] is [y] reduced over all elements ([axis] None) or along one axis, [R]
    relating the elements reduced to the result: a scalar if no axis is left,
    otherwise a larry without that axis. *)
Definition reduction_by (R : list val -> val -> Prop) (y : larry) (axis : option Z) (o : out) : Prop :=
  match axis with
  | None => exists vs v, o = OVal v /\ values_of y vs /\ R vs v
  | Some a => exists ax, axis_is y a ax /\
      (length (llabel y) = 1 -> exists vs v, o = OVal v /\ lane_of y ax [] vs /\ R vs v) /\
      (1 < length (llabel y) -> exists z, o = OLar z /\ valid z /\ llabel z = delete ax (llabel y) /\
         forall ls, in_grid (llabel z) ls -> exists vs v, lane_of y ax ls vs /\ cell z ls = Some v /\ R vs v)
  end.
Definition reduction_of (op : red_op) : larry -> option Z -> out -> Prop := reduction_by (reduces op).
(** The axis argument names an axis, or is None. *)
Definition axis_ok (y : larry) (axis : option Z) : Prop :=
  match axis with None => True | Some a => exists ax, axis_is y a ax end.
(** No axis has length zero. *)
Definition nonempty (y : larry) : Prop := Forall (fun l => l <> []) (llabel y).
(** The result for a larry with an axis of length zero: [v] everywhere. *)
Definition reduction_default (v : val) (y : larry) (axis : option Z) (o : out) : Prop :=
  match axis with
  | None => o = OVal v
  | Some a => exists ax, axis_is y a ax /\
      (length (llabel y) = 1 -> o = OVal v) /\
      (1 < length (llabel y) -> exists z, o = OLar z /\ valid z /\ llabel z = delete ax (llabel y) /\
         forall ls, in_grid (llabel z) ls -> cell z ls = Some v)
  end.

(** The slice at label [x] of axis [ax] has a finite cell. *)
Definition slice_finite (y : larry) (ax : nat) (x : lab) : Prop :=
  exists ls, ls !! ax = Some x /\ finite_at y ls.
(** More than [1 - fraction] of the cells of that slice are finite. *)
Definition slice_enough (fraction : num) (y : larry) (ax : nat) (x : lab) : Prop :=
  exists n total, counts (fun ls => ls !! ax = Some x /\ finite_at y ls) n /\
    counts (fun ls => ls !! ax = Some x /\ in_grid (llabel y) ls) total /\
    num_lt (num_mul (num_sub (num_of_Z 1) fraction) (num_of_nat total)) (num_of_nat n).
(** [z] is [y] restricted along each of the [axes] to the labels satisfying
    [P]; nothing else changes. *)
Definition cut_down (P : nat -> lab -> Prop) (axes : nat -> Prop) (y z : larry) : Prop :=
  valid z /\ ldtype z = ldtype y /\ length (llabel z) = length (llabel y) /\
  (forall ax l, llabel y !! ax = Some l -> exists l', llabel z !! ax = Some l' /\
     (axes ax -> kept (P ax) l l') /\ (~ axes ax -> l' = l)) /\
  forall ls, in_grid (llabel z) ls -> cell z ls = cell y ls.
