(** Specification of a larry as a table of elements. *)
From Verif Require Export Spec.

(** All combinations of labels, the last label running fastest. *)
Fixpoint combinations (label : list (list lab)) : list (list lab) :=
  match label with [] => [[]] | axis :: label' => a ← axis; (fun ls => a :: ls) <$> combinations label' end.
Definition of_type (dt : dtype) (v : val) : Prop :=
  match dt with
  | DFloat => exists n, v = VFloat n
  | DInt => exists z, v = VInt z
  | DBool => exists b, v = VBool b
  | DStr => exists s, v = VStr s
  | DObj => True
  end.
(** The number of an int or a bool as a float. *)
Definition same_number (v w : val) : Prop :=
  match v with
  | VInt z => exists q, w = VFloat (Fin q) /\ (this q == inject_Z z)%Q
  | VBool b => exists q, w = VFloat (Fin q) /\ (this q == if b then 1 else 0)%Q
  | _ => w = v
  end.
