(** Label elements, their order, and Python's sort on them. *)
From Verif Require Export Base.
From stdpp Require Import sorting.
From Coq Require Import Ascii.

(** A label element.  The documentation (doc/source/work.rst) and the tests
    use ints, strings, dates, times, datetimes, and, for flattened larrys,
    tuples of those.  Dates are given by their ordinal; times and datetimes by
    their fields and an optional UTC offset.  Simplification: equality is
    structural, so [1 == 1.0 == True] and NaN labels are outside the model. *)
Inductive lab :=
  | LInt (z : Z)
  | LStr (s : string)
  | LDate (ordinal : Z)
  | LTime (h m s us : Z) (tz : option Z)
  | LDatetime (y mo d h m s us : Z) (tz : option Z)
  | LTup (l : list lab).

(** Induction principle that sees inside tuples. *)
Lemma lab_ind' (P : lab -> Prop) :
  (forall z, P (LInt z)) -> (forall s, P (LStr s)) -> (forall d, P (LDate d)) ->
  (forall h m s us tz, P (LTime h m s us tz)) ->
  (forall y mo d h m s us tz, P (LDatetime y mo d h m s us tz)) ->
  (forall l, Forall P l -> P (LTup l)) ->
  forall a, P a.
Proof.
  intros H1 H2 H3 H4 H5 H6. fix IH 1. intros [z|s|d|h m s us tz|y mo d h m s us tz|l].
  - apply H1.
  - apply H2.
  - apply H3.
  - apply H4.
  - apply H5.
  - apply H6. induction l as [|b l IHl]; constructor; [apply IH|exact IHl].
Qed.

Global Instance lab_eq_dec : EqDecision lab.
Proof.
  unfold EqDecision. fix go 1. intros a b.
  destruct a as [z|s|d|h m s us tz|y mo d h m s us tz|l],
           b as [z'|s'|d'|h' m' s' us' tz'|y' mo' d' h' m' s' us' tz'|l'];
    try (right; discriminate).
  - destruct (decide (z = z')); [left|right]; congruence.
  - destruct (decide (s = s')); [left|right]; congruence.
  - destruct (decide (d = d')); [left|right]; congruence.
  - destruct (decide ((h,m,s,us,tz) = (h',m',s',us',tz'))); [left|right]; congruence.
  - destruct (decide ((y,mo,d,h,m,s,us,tz) = (y',mo',d',h',m',s',us',tz'))); [left|right]; congruence.
  - destruct (@list_eq_dec _ go l l') as [Hl|Hl]; [left|right]; congruence.
Defined.

(** The fields of a non-tuple label as a list of integers, led by a type tag. *)
Definition lab_key (a : lab) : list Z :=
  match a with
  | LInt z => [0; z]
  | LStr s => 1 :: ((fun c => Z.of_nat (nat_of_ascii c)) <$> list_ascii_of_string s)
  | LDate d => [2; d]
  | LTime h m s us tz => [3; h; m; s; us] ++ match tz with None => [] | Some o => [o] end
  | LDatetime y mo d h m s us tz =>
      [4; y; mo; d; h; m; s; us] ++ match tz with None => [] | Some o => [o] end
  | LTup _ => [5]
  end%Z.

Fixpoint zlist_cmp (l1 l2 : list Z) : comparison :=
  match l1, l2 with
  | [], [] => Eq
  | [], _ :: _ => Lt
  | _ :: _, [] => Gt
  | a :: l1', b :: l2' =>
      match Z.compare a b with Eq => zlist_cmp l1' l2' | c => c end
  end.

(** Python's order on label elements: numbers by value, strings
    lexicographically by character, dates chronologically, tuples
    lexicographically.  Labels of different types are ordered by type, as in
    Python 2 (Python 3 raises, see [comparable]).  Simplification: times with
    different UTC offsets are ordered by fields first. *)
Fixpoint lab_cmp (a b : lab) {struct a} : comparison :=
  match a, b with
  | LTup l1, LTup l2 =>
      (fix go (l1 l2 : list lab) {struct l1} : comparison :=
         match l1, l2 with
         | [], [] => Eq
         | [], _ :: _ => Lt
         | _ :: _, [] => Gt
         | x :: l1', y :: l2' =>
             match lab_cmp x y with Eq => go l1' l2' | c => c end
         end) l1 l2
  | _, _ => zlist_cmp (lab_key a) (lab_key b)
  end.

Definition lab_le (a b : lab) : Prop := lab_cmp a b <> Gt.
Definition lab_lt (a b : lab) : Prop := lab_cmp a b = Lt.
Global Instance lab_le_dec a b : Decision (lab_le a b).
Proof. unfold lab_le. solve_decision. Defined.
Global Instance lab_lt_dec a b : Decision (lab_lt a b).
Proof. unfold lab_lt. solve_decision. Defined.

(** Whether Python 3 can evaluate [a < b]: same type, and for tuples the first
    differing elements must be comparable. *)
Fixpoint comparable (a b : lab) {struct a} : bool :=
  match a, b with
  | LInt _, LInt _ | LStr _, LStr _ | LDate _, LDate _ => true
  | LTime _ _ _ _ t1, LTime _ _ _ _ t2 => bool_decide (is_Some t1 <-> is_Some t2)
  | LDatetime _ _ _ _ _ _ _ t1, LDatetime _ _ _ _ _ _ _ t2 =>
      bool_decide (is_Some t1 <-> is_Some t2)
  | LTup l1, LTup l2 =>
      (fix go (l1 l2 : list lab) {struct l1} : bool :=
         match l1, l2 with
         | x :: l1', y :: l2' => if decide (x = y) then go l1' l2' else comparable x y
         | _, _ => true
         end) l1 l2
  | _, _ => false
  end.

(** [list.sort()] / [sorted()] needs all compared pairs comparable. *)
Definition sortable (l : list lab) : bool :=
  forallb (fun a => forallb (fun b => bool_decide (a = b) || comparable a b) l) l.

(** [sorted(l)].  Simplification: TypeError is raised as soon as some pair of
    different elements is not comparable; CPython raises unless its algorithm
    happens not to compare such a pair, which can only happen for tuples. *)
Definition py_sorted (l : list lab) : res (list lab) :=
  if sortable l then Ok (merge_sort lab_le l) else Err TypeError.

(** [sorted(l, reverse=True)].  Only used on lists without equal elements,
    where it is the reverse of the ascending sort. *)
Definition py_sorted_rev (l : list lab) : res (list lab) := reverse <$> py_sorted l.

(** [sorted(set(l))]. *)
Definition sorted_set (l : list lab) : res (list lab) := py_sorted (remove_dups l).
