(** The data and the labels of a larry as copies or references, and the old
    checks for references of la/util/testing.py, on the memory of Heap.v. *)
From Verif Require Export SpecHeap.

(** [y.getx(copy)]: la/deflarry.py:2211-2242; [y.copyx()]: 4968-4979; [y.A]:
    2244-2258. *)
Definition h_copyx (p : nat) : cmd harr :=
  a ← ld_x p;
  x ← load a;
  alloc x.
Definition h_getx (p : nat) (copy : bool) : cmd harr := if copy then h_copyx p else ld_x p.
Definition h_A (p : nat) : cmd harr := ld_x p.
(** [y.getlabel(axis, copy)]: la/deflarry.py:2260-2304; the list object.  A
    negative axis counts from the end. *)
Definition h_getlabel (p : nat) (axis : Z) (copy : bool) : cmd nat :=
  y ← value p;
  o ← ld_label p;
  is ← get_outer o;
  if decide (Z.of_nat (lndim y) <= axis)%Z then lift (Err IndexError) else
  i ← lift (of_opt IndexError (py_get is axis));
  if copy then l ← get_list i; new_list l else ret i.

(** [noreference(larry1, larry2)] and [nocopy(larry1, larry2)]:
    la/util/testing.py:261-287.  [same] says whether [larry1.x is larry2.x]: the
    array objects have no address in Heap.v, a view of all elements cannot be
    told from the array itself.  See [identity] in SpecRefs.v. *)
Definition checked (f : list (nat * nat) -> bool) (h : heap) (p q : nat) : option (res bool) :=
  y1 ← read_larry h p;
  y2 ← read_larry h q;
  o1 ← h_objs h !! p;
  o2 ← h_objs h !! q;
  is1 ← h_outers h !! o_label o1;
  is2 ← h_outers h !! o_label o2;
  Some (if decide (lndim y1 = lndim y2) then Ok (f (zip is1 is2)) else Err ValueError).
Definition noreference (same : bool) : heap -> nat -> nat -> option (res bool) :=
  checked (fun ps => negb same && forallb (fun ij => bool_decide (ij.1 <> ij.2)) ps).
Definition nocopy (same : bool) : heap -> nat -> nat -> option (res bool) :=
  checked (fun ps => same && forallb (fun ij => bool_decide (ij.1 = ij.2)) ps).
