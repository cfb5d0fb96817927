(** Specification of the text that shows a larry. *)
From Verif Require Export SpecCsv.
From Coq Require Import DecimalString.

(** The digits of a number. *)
Definition digits (i : nat) : text := letters (NilEmpty.string_of_uint (Nat.to_uint i)).
(** Behind four spaces. *)
Definition indented (t : text) : text := letters "    " ++ t.

Section show.
  (** Python's [str] of a label and [repr] of an array. *)
  Context (str : lab -> text) (repr : nda -> text).
  (** The lines of an axis: all labels if there are ten or less, else three,
      dots, and three. *)
  Inductive axis_lines : list lab -> list text -> Prop :=
    | axis_all l ls : length l <= 10 -> Forall2 (fun a s => s = indented (str a)) l ls -> axis_lines l ls
    | axis_some a b c mid d e f : 4 < length mid ->
        axis_lines ([a; b; c] ++ mid ++ [d; e; f])
          (indented <$> [str a; str b; str c; letters "..."; str d; str e; str f]).
  (** The lines of the axes, from axis [i] on, each below its name. *)
  Inductive label_lines : nat -> list (list lab) -> list text -> Prop :=
    | label_none i : label_lines i [] []
    | label_axis i l L ls rest : axis_lines l ls -> label_lines (S i) L rest ->
        label_lines i (l :: L) ((letters "label_" ++ digits i) :: ls ++ rest).
  (** [t] shows [y]: the labels, then the array. *)
  Definition shows (y : larry) (t : text) : Prop :=
    exists ls, label_lines 0 (llabel y) ls /\ t = concat ((fun l => l ++ [nl]) <$> ls) ++ letters "x" ++ [nl] ++ repr (lx y).

  (** No axis has more than ten labels; every label is on a line of its own. *)
  Definition few_labels (y : larry) : Prop := forall l, l ∈ llabel y -> length l <= 10.
  Definition one_line (y : larry) : Prop := forall l a, l ∈ llabel y -> a ∈ l -> nl ∉ str a.
End show.
