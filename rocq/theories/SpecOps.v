(** Specification of elementwise operators, and the types naming them. *)
From Verif Require Export Spec.

(** The operators [+ - * / //], [& |] and the six comparisons.  [ADiv] is true
    division, the [/] of Python 3; [AOldDiv] is the [/] of Python 2, which on
    arrays without floats is [//]. *)
Inductive arith_op := AAdd | ASub | AMul | ADiv | AFloorDiv | AOldDiv.
Inductive logic_op := LAnd | LOr.
Inductive cmp_op := CEq | CNe | CLt | CGt | CLe | CGe.
Global Instance arith_op_eq_dec : EqDecision arith_op.
Proof. solve_decision. Defined.

(** What the other operand of a binary operator can be; [OpList] is a Python
    list or tuple that numpy reads as the given array, [OpOther] any other
    object. *)
Inductive operand := OpLarry (y : larry) | OpArr (a : nda) | OpScalar (v : val) | OpList (a : nda) | OpOther.

(** The operand holds floats. *)
Definition has_float (o : operand) : Prop :=
  match o with
  | OpLarry y => ldtype y = DFloat
  | OpArr a | OpList a => nd_dtype a = DFloat
  | OpScalar v => exists n, v = VFloat n
  | OpOther => False
  end.
(** A larry among the operands is well formed. *)
Definition operand_valid (o : operand) : Prop := match o with OpLarry y => valid y | _ => True end.

(** Dtypes with arithmetic. *)
Definition arithmetic (dt : dtype) : Prop := dt = DFloat \/ dt = DInt \/ dt = DBool.

(** Arithmetic on extended numbers. *)
Definition arith_num (op : arith_op) (a b : num) : num :=
  match op with
  | AAdd => num_add a b
  | ASub => num_sub a b
  | AMul => num_mul a b
  | ADiv | AOldDiv => num_div a b
  | AFloorDiv => num_floor (num_div a b)
  end.

(** [v] is a correct result of [v1 op v2].  Two booleans are combined by or
    (+), exclusive or (-) and and ( * ); an integer divided by zero with [//] is
    zero, the [/] of Python 2 rounds down unless there is a float; otherwise [v] is the number [op] yields. *)
Definition arith_value (op : arith_op) (v1 v2 v : val) : Prop :=
  match op, v1, v2 with
  | AAdd, VBool a, VBool b => v = VBool (a || b)
  | ASub, VBool a, VBool b => v = VBool (xorb a b)
  | AMul, VBool a, VBool b => v = VBool (a && b)
  | AOldDiv, _, _ =>
      exists n1 n2, to_num v1 = Some n1 /\ to_num v2 = Some n2 /\
      if decide (has_dtype DFloat v1 = false /\ has_dtype DFloat v2 = false)
      then has_dtype DInt v = true /\
           to_num v = Some (if decide (n2 = num_of_Z 0) then num_of_Z 0 else num_floor (num_div n1 n2))
      else v = VFloat (num_div n1 n2)
  | _, _, _ =>
      exists n1 n2, to_num v1 = Some n1 /\ to_num v2 = Some n2 /\
      if decide (op = AFloorDiv /\ n2 = num_of_Z 0 /\ has_dtype DFloat v1 = false /\ has_dtype DFloat v2 = false)
      then v = VInt 0
      else to_num v = Some (arith_num op n1 n2)
  end.

(** The dtype of an arithmetic result. *)
Definition arith_result (op : arith_op) (dt1 dt2 dt : dtype) : Prop :=
  dt = if decide (op = ADiv \/ dt1 = DFloat \/ dt2 = DFloat) then DFloat
       else if decide (dt1 = DBool /\ dt2 = DBool /\ op <> AFloorDiv /\ op <> AOldDiv) then DBool else DInt.

(** The order of extended numbers; NaN is unordered. *)
Definition num_lt (a b : num) : Prop :=
  match a, b with
  | Fin p, Fin q => (p < q)%Qc
  | NInf, (Fin _ | PInf) => True
  | Fin _, PInf => True
  | _, _ => False
  end.
Definition num_same (a b : num) : Prop := a = b /\ a <> NaN.

(** A comparison holds between two elements: numerically, or lexicographically
    for two strings. *)
Definition cmp_holds (op : cmp_op) (v1 v2 : val) : Prop :=
  match v1, v2 with
  | VStr a, VStr b =>
      match op with
      | CEq => a = b | CNe => a <> b
      | CLt => String.ltb a b = true | CGt => String.ltb b a = true
      | CLe => a = b \/ String.ltb a b = true | CGe => a = b \/ String.ltb b a = true
      end
  | _, _ =>
      exists n1 n2, to_num v1 = Some n1 /\ to_num v2 = Some n2 /\
      match op with
      | CEq => num_same n1 n2 | CNe => ~ num_same n1 n2
      | CLt => num_lt n1 n2 | CGt => num_lt n2 n1
      | CLe => num_lt n1 n2 \/ num_same n1 n2 | CGe => num_lt n2 n1 \/ num_same n1 n2
      end
  end.
(** Dtypes that can be compared with each other. *)
Definition same_kind (dt1 dt2 : dtype) : Prop := arithmetic dt1 /\ arithmetic dt2 \/ dt1 = DStr /\ dt2 = DStr.

Definition logic_value (op : logic_op) (v1 v2 : val) : bool :=
  match op with LAnd => val_truth v1 && val_truth v2 | LOr => val_truth v1 || val_truth v2 end.

(** The labels of the result of an operator on two larrys: along every axis the
    common label if equal, otherwise the sorted intersection. *)
Definition inner_labels (y1 y2 z : larry) : Prop :=
  length (llabel z) = length (llabel y1) /\
  (forall i l1 l2 r, llabel y1 !! i = Some l1 -> llabel y2 !! i = Some l2 -> llabel z !! i = Some r -> inter_label l1 l2 r) /\
  (forall ls, in_grid (llabel z) ls <-> in_grid (llabel y1) ls /\ in_grid (llabel y2) ls).

(** An array of shape [s] broadcasts to shape [sh] without enlarging it:
    aligned on the right, every axis has length 1 or the length in [sh]. *)
Definition fits (s sh : list nat) : Prop :=
  length s <= length sh /\ Forall2 (fun m n => m = 1 \/ m = n) s (drop (length sh - length s) sh).
(** The element of an array of shape [s] used at position [idx]. *)
Definition broadcast_index (s idx idx' : list nat) : Prop :=
  Forall3 (fun n i j => j = if decide (n = 1) then 0 else i) s (drop (length idx - length s) idx) idx'.

(** The value of [y] after filling missing values: [m1] where only [y] is
    missing, [m2] where both [y] and [other] are; [None] leaves them. *)
Definition filled (y other : larry) (m1 m2 : option val) (ls : list lab) : option val :=
  let or_own m := match m with Some v => Some (cast_to (ldtype y) v) | None => cell y ls end in
  match data_at y ls, data_at other ls with
  | Some v, _ => Some v
  | None, Some _ => or_own m1
  | None, None => or_own m2
  end.

(** A negated number, for booleans the logical not. *)
Definition neg_value (v w : val) : Prop :=
  match v with
  | VBool b => w = VBool (negb b)
  | _ => exists n, to_num v = Some n /\ to_num w = Some (num_neg n)
  end.

(** Missing value fills that can be stored in numerical arrays. *)
Definition fill_value (m : option val) : Prop :=
  match m with None => True | Some v => exists n, to_num v = Some n end.

(** The absolute value and the sign of a number. *)
Definition abs_of (n m : num) : Prop :=
  if decide (n = NaN) then m = NaN else ~ num_lt m (num_of_Z 0) /\ (m = n \/ m = num_neg n).
Definition sign_of (n s : num) : Prop :=
  (n = NaN -> s = NaN) /\ (num_lt n (num_of_Z 0) -> s = num_of_Z (-1)) /\ (num_same n (num_of_Z 0) -> s = num_of_Z 0) /\
  (num_lt (num_of_Z 0) n -> s = num_of_Z 1).
