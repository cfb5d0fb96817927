(** Specification of the normalisations: ranking, lastrank, quantile, demean,
    demedian and zscore. *)
From Verif Require Export SpecNum SpecOps SpecCreate.
From Coq Require Import Sorted.

(** [z] is the float larry obtained by replacing the numbers [ns] of each lane
    along the axis (of the whole larry if [axis] is None, in some order) by
    numbers [ms] with [R ns ms]. *)
Definition lanes_related (R : list num -> list num -> Prop) (y : larry) (axis : option Z) (z : larry) : Prop :=
  valid z /\ ldtype z = DFloat /\ llabel z = llabel y /\
  match axis with
  | Some a => exists ax, axis_is y a ax /\
      forall ls, in_grid (delete ax (llabel y)) ls -> exists vs ns ms,
        lane_of y ax ls vs /\ numbers vs ns /\ lane_of z ax ls (VFloat <$> ms) /\ R ns ms
  | None => exists ts vs ns ms, NoDup ts /\ (forall ls, ls ∈ ts <-> in_grid (llabel y) ls) /\
        Forall2 (fun ls v => cell y ls = Some v) ts vs /\ numbers vs ns /\
        Forall2 (fun ls m => cell z ls = Some (VFloat m)) ts ms /\ R ns ms
  end.

Global Instance num_lt_dec (a b : num) : Decision (num_lt a b).
Proof. destruct a, b; simpl; apply _. Defined.

(** How many of the numbers are less than (equal to) [n]. *)
Definition count_lt (n : num) (ns : list num) : nat := length (filter (fun m => num_lt m n) ns).
Definition count_eq (n : num) (ns : list num) : nat := length (filter (fun m => m = n) ns).

(** The ranking of [ns] from -1 to 1: NaN stays NaN, a single number becomes
    0, and of several numbers the mean of the positions (0, 1, ...) that equal
    numbers take in sorted order is mapped linearly from 0..N-1 to -1..1. *)
Definition ranked (ns ms : list num) : Prop :=
  length ms = length ns /\
  forall k n, ns !! k = Some n -> exists m, ms !! k = Some m /\
    if decide (n = NaN) then m = NaN
    else if decide (length (present ns) = 1) then m = num_of_Z 0
    else exists q, m = Fin q /\
         (((q + 1) * Qc_of_Z (Z.of_nat (length (present ns)) - 1))%Qc =
          Qc_of_Z (2 * Z.of_nat (count_lt n ns) + Z.of_nat (count_eq n ns) - 1)).
(** The same scaled to 0..N-1 where N counts all elements. *)
Definition rank_scale (len : nat) (m : num) : num :=
  num_mul (num_add m (num_of_Z 1)) (num_div (num_of_Z (Z.of_nat len - 1)) (num_of_Z 2)).
Definition ranked_N (ns ms : list num) : Prop :=
  exists rs, ranked ns rs /\ ms = rank_scale (length ns) <$> rs.
(** The normal quantiles of the ranks scaled into the open unit interval. *)
Definition ranked_gaussian (ndtri : num -> num) (ns ms : list num) : Prop :=
  exists rs, ranked_N ns rs /\ length ms = length ns /\
  forall k n r, ns !! k = Some n -> rs !! k = Some r ->
    ms !! k = Some (if decide (length (present ns) = 1 /\ n <> NaN) then num_of_Z 0
                    else ndtri (num_div (num_add r (num_of_Z 1)) (num_of_Z (Z.of_nat (length ns) + 1)))).

(** Bins for [quantile]: [rs] ranks the finite numbers (ties in any order),
    [bs] are their bins 1..q, increasing with the rank; the sizes of the bins
    differ by at most one. *)
Definition binned (q : nat) (fs : list num) (bs : list nat) : Prop :=
  length bs = length fs /\ (forall b, b ∈ bs -> 1 <= b <= q) /\
  (exists rs, rs ≡ₚ seq 0 (length fs) /\
    (forall i j a b ri rj, fs !! i = Some a -> fs !! j = Some b -> rs !! i = Some ri -> rs !! j = Some rj ->
       ri < rj -> num_le a b) /\
    (forall i j ri rj bi bj, rs !! i = Some ri -> rs !! j = Some rj -> bs !! i = Some bi -> bs !! j = Some bj ->
       ri <= rj -> bi <= bj)) /\
  (forall b b', 1 <= b <= q -> 1 <= b' <= q -> length (filter (fun x => x = b) bs) <= S (length (filter (fun x => x = b') bs))).
(** Bin [b] of [q] as a number from -1 (first) to 1 (last). *)
Definition bin_value (q b : nat) : num :=
  num_sub (num_mul (num_of_Z 2) (num_div (num_of_Z (Z.of_nat b - 1)) (num_of_Z (Z.of_nat q - 1)))) (num_of_Z 1).
(** [fs] are the finite numbers of [ns], at the positions [ks]. *)
Definition finite_part (ns : list num) (ks : list nat) (fs : list num) : Prop :=
  StronglySorted lt ks /\ Forall2 (fun k f => ns !! k = Some f) ks fs /\
  forall k n, ns !! k = Some n -> (k ∈ ks <-> is_finite n = true).
Definition quantiled (q : nat) (ns ms : list num) : Prop :=
  length ms = length ns /\
  if decide (q = 1) then
    forall k n, ns !! k = Some n -> ms !! k = Some (if decide (n = NaN) then NaN else num_of_Z 0)
  else exists ks fs bs, finite_part ns ks fs /\ binned q fs bs /\
    Forall2 (fun k b => ms !! k = Some (bin_value q b)) ks bs /\
    forall k n, ns !! k = Some n -> is_finite n = false -> ms !! k = Some NaN.

(** Each number minus the mean (median) of the numbers. *)
Definition centred (c : list num -> num -> Prop) (ns ms : list num) : Prop :=
  exists mu, (if decide (present ns = []) then mu = NaN else c (present ns) mu) /\
  ms = (fun n => num_sub n mu) <$> ns.
Definition demeaned : list num -> list num -> Prop := centred (fun l mu => mu = mean_of l).
Definition demedianed : list num -> list num -> Prop := centred median_of.
(** ... divided by their standard deviation. *)
Definition zscored (sqrt : num -> num) (ns ms : list num) : Prop :=
  exists ds sd, demeaned ns ds /\
    (if decide (present ds = []) then sd = NaN else exists var, reduced (RVar 0) (present ds) var /\ sd = sqrt var) /\
    ms = (fun d => num_div d sd) <$> ds.

(** All numbers are finite or NaN. *)
Definition no_infinity (ns : list num) : Prop := forall n, n ∈ ns -> is_inf n = false.

(** [ms] has the order of [ns]. *)
Definition same_order (ns ms : list num) : Prop :=
  forall i j a b m n, ns !! i = Some a -> ns !! j = Some b -> ms !! i = Some m -> ms !! j = Some n ->
    (num_lt a b <-> num_lt m n) /\ (a = b -> m = n).
(** The numbers of [ms] lie between [lo] and [hi], NaN exactly where [ns] is NaN. *)
Definition within (lo hi : num) (ns ms : list num) : Prop :=
  forall i n m, ns !! i = Some n -> ms !! i = Some m ->
    (n = NaN <-> m = NaN) /\ (n <> NaN -> num_le lo m /\ num_le m hi).
(** [y2] has minus the numbers of [y1]. *)
Definition negated (y1 y2 : larry) : Prop :=
  llabel y2 = llabel y1 /\
  forall ls, in_grid (llabel y1) ls -> exists v1 v2 n, cell y1 ls = Some v1 /\ cell y2 ls = Some v2 /\
    to_num v1 = Some n /\ to_num v2 = Some (num_neg n).
Definition numeric_larry (y : larry) : Prop := ldtype y = DFloat \/ ldtype y = DInt.

(** What [lastrank] computes for a lane: the formula of [ranked] for the last
    number, with the number of finite numbers in place of the number of
    numbers that are not NaN. *)
Definition last_ranked (ns : list num) (m : num) : Prop :=
  exists n, last ns = Some n /\
  let c := length (filter (fun n => is_finite n = true) ns) in
  if is_finite n then
    (c = 1 -> m = if decide (count_lt n ns = 0) then NaN else PInf) /\
    (c <> 1 -> exists q, m = Fin q /\
       ((q + 1) * Qc_of_Z (Z.of_nat c - 1))%Qc = Qc_of_Z (2 * Z.of_nat (count_lt n ns) + Z.of_nat (count_eq n ns) - 1))
  else m = NaN.

(** Number of elements of a lane along the axis, of the whole larry for None. *)
Definition lane_length (y : larry) (axis : option Z) (n : nat) : Prop :=
  match axis with
  | Some a => exists ax l, axis_is y a ax /\ llabel y !! ax = Some l /\ n = length l
  | None => n = size_of (length <$> llabel y)
  end.
