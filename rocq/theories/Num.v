(** Numbers, array elements and dtypes. *)
From Verif Require Export Base.
From Coq Require Export QArith Qcanon.
From Coq Require Qround.
Global Open Scope nat_scope.
Global Open Scope stdpp_scope.

(** A floating point value, idealised: an exact rational, NaN or an infinity.
    Rounding, overflow and signed zeros are not modelled. *)
Inductive num := Fin (q : Qc) | NaN | PInf | NInf.

Global Instance Qc_eq_dec' : EqDecision Qc := Qc_eq_dec.
Global Instance num_eq_dec : EqDecision num.
Proof. solve_decision. Defined.

Definition is_nan (a : num) : bool := match a with NaN => true | _ => false end.
Definition is_finite (a : num) : bool := match a with Fin _ => true | _ => false end.
Definition is_inf (a : num) : bool := match a with PInf | NInf => true | _ => false end.

Definition num_of_Z (z : Z) : num := Fin (Qc_of_Z z).
Definition num_of_nat (n : nat) : num := num_of_Z (Z.of_nat n).

Definition Qc_ltb (a b : Qc) : bool := match Qccompare a b with Lt => true | _ => false end.
Definition Qc_leb (a b : Qc) : bool := match Qccompare a b with Gt => false | _ => true end.

(** IEEE 754 rules for the special values, exact arithmetic otherwise. *)
Definition num_neg (a : num) : num :=
  match a with Fin q => Fin (- q)%Qc | NaN => NaN | PInf => NInf | NInf => PInf end.

Definition num_add (a b : num) : num :=
  match a, b with
  | NaN, _ | _, NaN => NaN
  | Fin p, Fin q => Fin (p + q)%Qc
  | PInf, NInf | NInf, PInf => NaN
  | PInf, _ | _, PInf => PInf
  | NInf, _ | _, NInf => NInf
  end.

Definition num_sub (a b : num) : num := num_add a (num_neg b).

(** Infinity with the sign of [q]; NaN for zero. *)
Definition inf_sign (q : Qc) (pos : num) (neg : num) : num :=
  if Qc_ltb 0 q then pos else if Qc_ltb q 0 then neg else NaN.

Definition num_mul (a b : num) : num :=
  match a, b with
  | NaN, _ | _, NaN => NaN
  | Fin p, Fin q => Fin (p * q)%Qc
  | PInf, PInf | NInf, NInf => PInf
  | PInf, NInf | NInf, PInf => NInf
  | PInf, Fin q | Fin q, PInf => inf_sign q PInf NInf
  | NInf, Fin q | Fin q, NInf => inf_sign q NInf PInf
  end.

Definition num_div (a b : num) : num :=
  match a, b with
  | NaN, _ | _, NaN => NaN
  | Fin p, Fin q => if decide (q = 0%Qc) then inf_sign p PInf NInf else Fin (p / q)%Qc
  | Fin _, (PInf | NInf) => Fin 0%Qc
  | (PInf | NInf), (PInf | NInf) => NaN
  | PInf, Fin q => if Qc_ltb q 0 then NInf else PInf
  | NInf, Fin q => if Qc_ltb q 0 then PInf else NInf
  end.

Definition num_abs (a : num) : num :=
  match a with
  | Fin q => Fin (if Qc_ltb q 0 then - q else q)%Qc
  | NaN => NaN
  | PInf | NInf => PInf
  end.

Definition num_sign (a : num) : num :=
  match a with
  | Fin q => if Qc_ltb q 0 then num_of_Z (-1) else if Qc_ltb 0 q then num_of_Z 1 else num_of_Z 0
  | NaN => NaN
  | PInf => num_of_Z 1
  | NInf => num_of_Z (-1)
  end.

(** [np.floor]. *)
Definition num_floor (a : num) : num :=
  match a with Fin q => num_of_Z (Qround.Qfloor (this q)) | _ => a end.

(** Comparisons; every comparison with NaN is false except [!=]. *)
Definition num_ltb (a b : num) : bool :=
  match a, b with
  | NaN, _ | _, NaN => false
  | Fin p, Fin q => Qc_ltb p q
  | NInf, (Fin _ | PInf) => true
  | Fin _, PInf => true
  | _, _ => false
  end.
Definition num_eqb (a b : num) : bool :=
  match a, b with
  | NaN, _ | _, NaN => false
  | _, _ => bool_decide (a = b)
  end.
Definition num_leb (a b : num) : bool := num_ltb a b || num_eqb a b.

(** * Array elements *)

(** dtypes: [float], [int], [bool], [str], [object].  Integers are unbounded
    and strings have no fixed width. *)
Inductive dtype := DFloat | DInt | DBool | DStr | DObj.
Global Instance dtype_eq_dec : EqDecision dtype.
Proof. solve_decision. Defined.

(** An element; [VObj] is an opaque Python object other than [None] (for
    instance a date in an object array). *)
Inductive val :=
  | VFloat (n : num) | VInt (z : Z) | VBool (b : bool) | VStr (s : string)
  | VNone | VObj (o : Z).
Global Instance val_eq_dec : EqDecision val.
Proof. solve_decision. Defined.

(** Which elements an array of a given dtype can hold. *)
Definition has_dtype (dt : dtype) (v : val) : bool :=
  match dt, v with
  | DFloat, VFloat _ | DInt, VInt _ | DBool, VBool _ | DStr, VStr _ => true
  | DObj, _ => true
  | _, _ => false
  end.

(** Numeric reading of an element. *)
Definition to_num (v : val) : option num :=
  match v with
  | VFloat n => Some n
  | VInt z => Some (num_of_Z z)
  | VBool b => Some (num_of_Z (if b then 1 else 0))
  | _ => None
  end.

(** [astype(float)] on the elements of numeric and bool arrays; strings and
    objects are not converted by the modelled code. *)
Definition val_to_float (v : val) : val :=
  match to_num v with Some n => VFloat n | None => v end.

(** Python truth value. *)
Definition val_truth (v : val) : bool :=
  match v with
  | VFloat n => negb (bool_decide (n = Fin 0%Qc))
  | VInt z => negb (bool_decide (z = 0%Z))
  | VBool b => b
  | VStr s => negb (bool_decide (s = EmptyString))
  | VNone => false
  | VObj _ => true
  end.

(** Truncation toward zero, as the C cast from float to int. *)
Definition Qc_trunc (q : Qc) : Z := Z.quot (Qnum (this q)) (Zpos (Qden (this q))).

(** Storing a scalar into an array of dtype [dt] ([x[i] = v]).
    Simplifications: numpy would read numbers from strings and write numbers as
    strings where this refuses; string widths are left out. *)
Definition store (dt : dtype) (v : val) : res val :=
  match dt, v with
  | DObj, _ => Ok v
  | DFloat, (VFloat _ | VInt _ | VBool _) => Ok (val_to_float v)
  | DInt, VInt _ => Ok v
  | DInt, VBool b => Ok (VInt (if b then 1 else 0))
  | DInt, VFloat (Fin q) => Ok (VInt (Qc_trunc q))
  | DInt, VFloat _ => Err ValueError
  | DBool, _ => Ok (VBool (val_truth v))
  | DStr, VStr _ => Ok v
  | DStr, _ => Err TypeError
  | (DFloat | DInt), VStr _ => Err ValueError
  | (DFloat | DInt), _ => Err TypeError
  end.
