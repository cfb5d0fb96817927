(** Normalising numbers that are normalised already. *)
From Verif Require Export SpecLaws SpecShift.

(** A square root: NaN, or a number that is not negative and is 0 only for 0,
    and the root of [c * c * v] is [c] times that of [v]. *)
Definition square_root (sqrt : num -> num) : Prop :=
  sqrt NaN = NaN /\
  (forall q, sqrt (Fin q) = NaN \/ exists r, sqrt (Fin q) = Fin r /\ (0 <= r)%Qc /\ (r = 0%Qc -> q = 0%Qc)) /\
  forall c v, (0 < c)%Qc -> sqrt (scaled (c * c) v) = scaled c (sqrt v).
