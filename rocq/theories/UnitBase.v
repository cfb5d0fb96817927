(** Comparisons used by the examples taken from the unit tests of la
    (UnitDeflarry.v, UnitFlarry.v, UnitOther.v). *)
From Verif Require Import Session.

Definition ra (n : Z) (d : positive) : num := Fin (Q2Qc (n # d)).
(** A root to twelve digits, standing for [np.sqrt]. *)
Definition approx_sqrt (n : num) : num :=
  match n with
  | Fin q => if Qc_ltb q 0 then NaN
             else Fin (Q2Qc (Z.sqrt (Qround.Qfloor (this q * inject_Z (10 ^ 24))%Q) # (10 ^ 12)))
  | PInf => PInf
  | _ => NaN
  end.
Definition int_pow (a b : num) : num :=
  match a, b with
  | Fin q, Fin e =>
      let z := Qround.Qfloor (this e) in
      if (z <? 0)%Z then (if decide (q = 0%Qc) then PInf else Fin (/ Qcpower q (Z.to_nat (- z)))%Qc)
      else Fin (Qcpower q (Z.to_nat z))
  | _, _ => NaN
  end.
(** The tolerance of the tests, 1e-8; a nan is near a nan. *)
Definition num_near (a b : num) : bool :=
  match a, b with
  | Fin p, Fin q =>
      let tol := Q2Qc (1 # 10 ^ 8) in Qc_ltb (p - q)%Qc tol && Qc_ltb (q - p)%Qc tol
  | _, _ => bool_decide (a = b)
  end.
Definition val_near (a b : val) : bool :=
  match to_num a, to_num b with
  | Some m, Some n => num_near m n
  | _, _ => bool_decide (a = b)
  end.
Fixpoint vals_near (l k : list val) : bool :=
  match l, k with
  | [], [] => true
  | a :: l, b :: k => val_near a b && vals_near l k
  | _, _ => false
  end.
Definition arr_near (a b : arr val) : bool := bool_decide (shape a = shape b) && vals_near (data a) (data b).
Definition ok2 {A B} (f : A -> B -> bool) (a : res A) (b : res B) : bool :=
  match a, b with Ok x, Ok y => f x y | _, _ => false end.
Definition ok1 {A} (f : A -> bool) (a : res A) : bool := match a with Ok x => f x | _ => false end.
(** [(abs(t - p.x) < tol).all()] broadcasts a scalar [t]. *)
Definition x_near (y : res larry) (sh : list nat) (vs : list val) : bool :=
  ok1 (fun y => match sh, vs with
                | [], [v] => forallb (val_near v) (data (larr y))
                | _, _ => arr_near (larr y) (Arr sh vs)
                end) y.
Definition xs_near : res larry -> res larry -> bool := ok2 (fun y z => arr_near (larr y) (larr z)).
Definition larry_near : res larry -> res larry -> bool :=
  ok2 (fun y z => arr_near (larr y) (larr z) && bool_decide (llabel y = llabel z)).
(** [assert_larry_equal], la/util/testing.py:14-250: labels, elements, dtype. *)
Definition larry_same : res larry -> res larry -> bool :=
  ok2 (fun y z => arr_near (larr y) (larr z) && bool_decide (llabel y = llabel z) && bool_decide (ldtype y = ldtype z)).
Definition v_near (v : res val) (w : val) : bool := ok1 (fun v => val_near v w) v.
Definition g_near : res gres -> res gres -> bool :=
  ok2 (fun g h => match g, h with
                  | GLar y, GLar z => arr_near (larr y) (larr z) && bool_decide (llabel y = llabel z)
                  | GVal v, GVal w => val_near v w
                  | _, _ => false
                  end).
Definition label_is (y : res larry) (l : list (list lab)) : bool := ok1 (fun y => bool_decide (llabel y = l)) y.
Definition labels_same : res larry -> res larry -> bool := ok2 (fun y z => bool_decide (llabel y = llabel z)).
Definition is_lab (r : res lab) (l : lab) : bool := ok1 (fun x => bool_decide (x = l)) r.
Definition is_labs (r : res (list lab)) (l : list lab) : bool := ok1 (fun x => bool_decide (x = l)) r.
Definition is_nat (r : res nat) (n : nat) : bool := ok1 (fun x => bool_decide (x = n)) r.
Definition is_bool (r : res bool) (b : bool) : bool := ok1 (fun x => bool_decide (x = b)) r.
Definition raises {A} (r : res A) (e : exn) : bool := match r with Err x => bool_decide (x = e) | _ => false end.

Definition lar_of_out (o : res out) : res larry :=
  o ← o; match o with OLar y => Ok y | OVal _ => Err AttributeError end.
Definition val_of_out (o : res out) : res val :=
  o ← o; match o with OVal v => Ok v | OLar _ => Err TypeError end.
Definition gres_of_out (o : res out) : res gres :=
  o ← o; Ok (match o with OLar y => GLar y | OVal v => GVal v end).
Definition lar_of_gres (g : res gres) : res larry :=
  g ← g; match g with GLar y => Ok y | _ => Err AttributeError end.
Definition val_of_gres (g : res gres) : res val :=
  g ← g; match g with GVal v => Ok v | _ => Err TypeError end.
Definition bin_larry (r : res (nda * list (option (list lab)))) : res larry :=
  p ← r; l ← mapR (of_opt ValueError) p.2; Ok (Larry p.1 l).
Definition table (t : list (lab * lab)) (l : lab) : lab :=
  match list_find (fun p => p.1 = l) t with Some (_, p) => p.2 | None => l end.
