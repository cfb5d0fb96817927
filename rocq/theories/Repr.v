(** [larry.__repr__] (la/deflarry.py:4983-5006).  Python's [str] of a label and
    [repr] of an array are parameters. *)
From Verif Require Export SpecRepr Larry.
From Verif Require Import Archive.

Section show.
  Context (str : lab -> text) (repr : nda -> text).
  (** The pieces for an axis: la/deflarry.py:4989-5001. *)
  Definition repr_pad : text := letters "    ".
  Definition repr_label (label : list lab) (i : Z) : res text :=
    a ← of_opt IndexError (py_get label i); Ok (repr_pad ++ str a ++ [nl]).
  Definition repr_axis (i : nat) (label : list lab) : res text :=
    body ← (if decide (10 < length label) then
              x0 ← repr_label label 0;
              x1 ← repr_label label 1;
              x2 ← repr_label label 2;
              x3 ← repr_label label (-3);
              x4 ← repr_label label (-2);
              x5 ← repr_label label (-1);
              Ok (x0 ++ x1 ++ x2 ++ (repr_pad ++ letters "..." ++ [nl]) ++ x3 ++ x4 ++ x5)
            else Ok (concat ((fun l => repr_pad ++ str l ++ [nl]) <$> label)));
    Ok ((letters "label_" ++ letters (str_nat i) ++ [nl]) ++ body).
  (** [__repr__]: la/deflarry.py:4983-5006. *)
  Definition larry_repr (y : larry) : res text :=
    x ← mapR (fun p : nat * list lab => repr_axis p.1 p.2) (zip (seq 0 (length (llabel y))) (llabel y));
    Ok (concat x ++ (letters "x" ++ [nl]) ++ repr (lx y)).
End show.
