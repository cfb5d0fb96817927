(** Specification of bounds of statistics. *)
From Verif Require Export SpecFarray SpecMove.

(** Statistic [m] of some numbers with the extremes [lo] and [hi]: all NaN if
    there are no numbers; between the extremes; not defined only if these are
    opposite infinities. *)
Definition bounded (lo m hi : num) : Prop :=
  lo = NaN /\ m = NaN /\ hi = NaN \/ num_le lo m /\ num_le m hi \/ lo = NInf /\ m = NaN /\ hi = PInf.
(** Three scalars, or three larrys with the same labels, related element by
    element. *)
Definition three_related (R : num -> num -> num -> Prop) (a b c : out) : Prop :=
  match a, b, c with
  | OVal u, OVal v, OVal w => exists l m n, to_num u = Some l /\ to_num v = Some m /\ to_num w = Some n /\ R l m n
  | OLar x, OLar y, OLar z => llabel x = llabel y /\ llabel z = llabel y /\
      forall ls, in_grid (llabel y) ls -> exists u v w l m n, cell x ls = Some u /\ cell y ls = Some v /\ cell z ls = Some w /\
        to_num u = Some l /\ to_num v = Some m /\ to_num w = Some n /\ R l m n
  | _, _, _ => False
  end.
(** A variance of numbers with the extremes [lo] and [hi]: zero exactly if there
    is one finite number, repeated. *)
Definition variance_bounded (lo m hi : num) : Prop :=
  (m = NaN <-> lo = NaN \/ lo = NInf \/ hi = PInf) /\ (m <> NaN -> num_le (num_of_Z 0) m) /\ (m = num_of_Z 0 <-> exists q, lo = Fin q /\ hi = Fin q).
