(** Specification of equality up to rounding. *)
From Verif Require Export SpecHeap.

(** Numbers that differ by less than [t]; NaN and the infinities are alike
    only to themselves. *)
Definition near (t : Qc) (a b : num) : Prop :=
  match a, b with
  | Fin p, Fin q => (p - q < t)%Qc /\ (q - p < t)%Qc
  | _, _ => a = b
  end.
(** 1.5e-13 and 0.5e-7. *)
Definition tol_array : Qc := Q2Qc (15 # 100000000000000).
Definition tol_scalar : Qc := Q2Qc (5 # 100000000).

(** The same number or the same string. *)
Definition same_element (v w : val) : Prop :=
  (exists n, to_num v = Some n /\ to_num w = Some n /\ n <> NaN) \/ (exists s, v = VStr s /\ w = VStr s).
(** Larrys with the same labels and alike elements: to within the tolerance if
    one of them is a larry of floats, the same otherwise. *)
Definition alike (y z : larry) : Prop :=
  llabel y = llabel z /\ (ldtype y = DStr <-> ldtype z = DStr) /\
  forall ls v w, cell y ls = Some v -> cell z ls = Some w ->
    if decide (ldtype y = DFloat \/ ldtype z = DFloat)
    then exists m n, to_num v = Some m /\ to_num w = Some n /\ near tol_array m n
    else same_element v w.
