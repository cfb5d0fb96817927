(** When a summary of summaries is the summary of everything. *)
From Verif Require Export SpecNum.

(** The larry does not hold both infinities. *)
Definition no_clash (y : larry) : Prop :=
  ~ (exists ls ls', cell y ls = Some (VFloat PInf) /\ cell y ls' = Some (VFloat NInf)).
(** All values are finite numbers. *)
Definition finite_larry (y : larry) : Prop := forall ls v, cell y ls = Some v -> exists q, to_num v = Some (Fin q).
