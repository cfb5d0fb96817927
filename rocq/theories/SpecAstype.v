(** Specification of the conversion of dtypes. *)
From Verif Require Export SpecNum.

(** [z] is [q] without its fractional part. *)
Definition truncated (q : Qc) (z : Z) : Prop :=
  ((0 <= q)%Qc -> (Qc_of_Z z <= q)%Qc /\ (q < Qc_of_Z (z + 1))%Qc) /\
  ((q <= 0)%Qc -> (Qc_of_Z (z - 1) < q)%Qc /\ (q <= Qc_of_Z z)%Qc).

(** [u] is the number or bool [v] in dtype [dt]. *)
Definition converted (dt : dtype) (v u : val) : Prop :=
  exists n, to_num v = Some n /\
  match dt with
  | DFloat => u = VFloat n
  | DInt => exists q z, n = Fin q /\ truncated q z /\ u = VInt z
  | DBool => exists b, u = VBool b /\ (b = false <-> n = num_of_Z 0)
  | DObj => u = v
  | DStr => False
  end.
(** [z] is [y] cell by cell in dtype [dt]. *)
Definition in_dtype (dt : dtype) (y z : larry) : Prop :=
  valid z /\ ldtype z = dt /\ llabel z = llabel y /\
  forall ls, in_grid (llabel y) ls -> exists v u, cell y ls = Some v /\ cell z ls = Some u /\ converted dt v u.
(** Floats, ints and bools. *)
Definition number_larry (y : larry) : Prop := ldtype y = DFloat \/ ldtype y = DInt \/ ldtype y = DBool.
(** Every cell is finite. *)
Definition all_finite (y : larry) : Prop := forall ls, in_grid (llabel y) ls -> finite_at y ls.
(** Every cell is a whole number. *)
Definition all_whole (y : larry) : Prop :=
  forall ls v, in_grid (llabel y) ls -> cell y ls = Some v -> exists z, to_num v = Some (num_of_Z z).
