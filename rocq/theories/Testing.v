(** The checks for copies and views of la/util/testing.py, on the memory of
    Heap.v. *)
From Verif Require Export SpecHeap.

(** The lowest and the highest position of an array in its buffer. *)
Definition bounds (ps : list nat) : option (nat * nat) :=
  match ps with [] => None | p :: ps' => Some (foldr Nat.min p ps', foldr Nat.max p ps') end.
(** [np.may_share_memory(a, b)] of numpy before 1.11: whether the ranges between
    the first and the last byte of the arrays overlap.  Different buffers do not
    overlap.  Simplification: an array without elements shares no memory. *)
Definition may_share_memory (a b : harr) : bool :=
  match bounds (data (a_pos a)), bounds (data (a_pos b)) with
  | Some (lo1, hi1), Some (lo2, hi2) => bool_decide (a_buf a = a_buf b) && (lo1 <=? hi2)%nat && (lo2 <=? hi1)%nat
  | _, _ => false
  end.

(** What an AssertionError complains about. *)
Inductive complaint := AboutData | AboutLabel (axis : nat).
Global Instance complaint_eq_dec : EqDecision complaint.
Proof. solve_decision. Defined.

(** The axes that both larrys have: [range(min(larry1.ndim, larry2.ndim))], with
    the list objects along them. *)
Definition label_pairs (h : heap) (o1 o2 : hobj) : option (list (nat * nat)) :=
  is1 ← h_outers h !! o_label o1;
  is2 ← h_outers h !! o_label o2;
  Some (zip is1 is2).
Definition complaints (data : bool) (label : nat * nat -> bool) (ps : list (nat * nat)) : list complaint :=
  (if data then [AboutData] else []) ++
  omap (fun ip => if label ip.2 then Some (AboutLabel ip.1) else None) (imap pair ps).

(** [assert_iscopy(larry1, larry2)] and [assert_isview(larry1, larry2)]:
    la/util/testing.py:211-246; the complaints of the AssertionError, none if
    the check passes. *)
Definition assert_iscopy (h : heap) (p q : nat) : option (list complaint) :=
  o1 ← h_objs h !! p;
  o2 ← h_objs h !! q;
  ps ← label_pairs h o1 o2;
  Some (complaints (may_share_memory (o_x o1) (o_x o2)) (fun ij => bool_decide (ij.1 = ij.2)) ps).
Definition assert_isview (h : heap) (p q : nat) : option (list complaint) :=
  o1 ← h_objs h !! p;
  o2 ← h_objs h !! q;
  ps ← label_pairs h o1 o2;
  Some (complaints (negb (may_share_memory (o_x o1) (o_x o2))) (fun ij => bool_decide (ij.1 <> ij.2)) ps).
