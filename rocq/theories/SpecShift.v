(** Larrys whose numbers are all changed in the same way. *)
From Verif Require Export SpecNum Larry.

(** A larry of floats. *)
Definition float_larry (y : larry) : Prop := valid y /\ ldtype y = DFloat.

(** [y] with [h] applied to each of its (float) numbers. *)
Definition change (h : num -> num) (v : val) : val := match v with VFloat n => VFloat (h n) | _ => v end.
Definition revalued (h : num -> num) (y : larry) : larry := Larry (Nda (ldtype y) (amap (change h) (larr y))) (llabel y).
Definition out_revalued (h : num -> num) (r : out) : out :=
  match r with OLar z => OLar (revalued h z) | OVal v => OVal (change h v) end.

Definition shifted (c : Qc) (n : num) : num := num_add n (Fin c).
Definition scaled (c : Qc) (n : num) : num := num_mul n (Fin c).

(** NaN stays NaN and larger numbers become larger. *)
Definition increasing (h : num -> num) : Prop :=
  (forall n, h n = NaN <-> n = NaN) /\ forall a b, num_lt a b -> num_lt (h a) (h b).
Definition finite_kept (h : num -> num) : Prop := forall n, is_finite (h n) = is_finite n.
