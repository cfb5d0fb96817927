(** Larrys whose axes are in another order. *)
From Verif Require Export SpecCommute Larry.

(** The entries of [l] at the positions [o]. *)
Definition permute {A} (o : list nat) (l : list A) : list A := omap (fun i => l !! i) o.
(** [y'] is [y] with its axes in the order [o]: axis [k] of [y'] is axis
    [o !! k] of [y]. *)
Definition axes_permuted (o : list nat) (y y' : larry) : Prop :=
  o ≡ₚ seq 0 (length (llabel y)) /\ valid y' /\ ldtype y' = ldtype y /\
  llabel y' = permute o (llabel y) /\
  forall ls, in_grid (llabel y) ls -> cell y' (permute o ls) = cell y ls.
(** The order of the other axes after axis [ax] of [y], which is axis [k] of
    [y'], is gone from both. *)
Definition order_left (k ax : nat) (o : list nat) : list nat := axis_left ax <$> delete k o.
(** For reductions that may give a number. *)
Definition out_permuted (o : list nat) (r r' : out) : Prop :=
  match r, r' with
  | OLar z, OLar z' => axes_permuted o z z'
  | OVal v, OVal v' => v' = v
  | _, _ => False
  end.
(** Both calls fail, or both succeed with results related by [R]. *)
Definition both {A} (R : A -> A -> Prop) (r r' : res A) : Prop :=
  match r, r' with Ok a, Ok b => R a b | Err _, Err _ => True | _, _ => False end.
(** [r'] is [r] transposed. *)
Definition out_T (r r' : out) : Prop :=
  match r, r' with OLar z, OLar z' => larry_T z = Ok z' | OVal v, OVal v' => v' = v | _, _ => False end.
