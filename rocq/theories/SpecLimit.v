(** Specification for arithmetic with infinities and NaN: limits of exact
    arithmetic. *)
From Verif Require Export SpecOps.

(** The rational numbers [p 0], [p 1], ... approach a floating point value. *)
Definition approaches (p : nat -> Q) (a : num) : Prop :=
  match a with
  | Fin q => forall e, (0 < e)%Q -> exists N, forall n, N <= n -> (- e < p n - this q < e)%Q
  | PInf => forall b, exists N, forall n, N <= n -> (b < p n)%Q
  | NInf => forall b, exists N, forall n, N <= n -> (p n < b)%Q
  | NaN => False
  end.
(** Which numbers may stand for the second operand: divisors are not zero, and
    zero is approached from above. *)
Definition any_operand (b : num) (q : nat -> Q) : Prop := True.
Definition divisor (b : num) (q : nat -> Q) : Prop :=
  forall n, if decide (b = Fin 0%Qc) then (0 < q n)%Q else ~ (q n == 0)%Q.
(** Exact arithmetic with numbers approaching [a] and [b] approaches [c]. *)
Definition limit_of (f : Q -> Q -> Q) (ok : num -> (nat -> Q) -> Prop) (a b c : num) : Prop :=
  a <> NaN /\ b <> NaN /\
  forall p q, approaches p a -> approaches q b -> ok b q -> approaches (fun n => f (p n) (q n)) c.
(** The result is the limit, and NaN if there is none. *)
Definition limit_or_nan (f : Q -> Q -> Q) (ok : num -> (nat -> Q) -> Prop) (a b c : num) : Prop :=
  (forall d, limit_of f ok a b d -> c = d) /\ ((forall d, ~ limit_of f ok a b d) -> c = NaN).
Definition exact_op (op : arith_op) : Q -> Q -> Q :=
  match op with AAdd => Qplus | ASub => Qminus | AMul => Qmult | _ => Qdiv end.
Definition second_operand (op : arith_op) : num -> (nat -> Q) -> Prop :=
  match op with AAdd | ASub | AMul => any_operand | _ => divisor end.
(** The number an element stands for. *)
Definition reads (v : val) (a : num) : Prop :=
  match v with
  | VFloat n => a = n
  | VInt z => a = Fin (Q2Qc (inject_Z z))
  | VBool b => a = Fin (if b then 1 else 0)%Qc
  | _ => False
  end.
(** The operator is neither rounding nor one on two bools. *)
Definition exact_for (op : arith_op) (v1 v2 : val) : Prop :=
  match op, v1, v2 with
  | AFloorDiv, _, _ => False
  | AOldDiv, VFloat _, _ | AOldDiv, _, VFloat _ => True
  | AOldDiv, _, _ => False
  | ADiv, _, _ => True
  | _, VBool _, VBool _ => False
  | _, _, _ => True
  end.
(** Exact integer arithmetic; division rounds down, by zero it gives zero. *)
Definition int_op (op : arith_op) (a b c : Z) : Prop :=
  match op with
  | AAdd => c = (a + b)%Z
  | ASub => c = (a - b)%Z
  | AMul => c = (a * b)%Z
  | _ => b = 0%Z /\ c = 0%Z \/ (0 < b /\ c * b <= a < (c + 1) * b)%Z \/ (b < 0 /\ (c + 1) * b < a <= c * b)%Z
  end.
(** A finite number rounded down, other numbers as they are. *)
Definition rounded_down (a c : num) : Prop :=
  match a with
  | Fin q => exists k, reads (VInt k) c /\ (inject_Z k <= this q < inject_Z (k + 1))%Q
  | _ => c = a
  end.
(** The decimals dropped. *)
Definition chopped (q : Qc) (k : Z) : Prop :=
  (0 <= this q -> inject_Z k <= this q < inject_Z (k + 1))%Q /\ (this q <= 0 -> inject_Z (k - 1) < this q <= inject_Z k)%Q.
(** Assigning [v] to an element of an array stores [w]. *)
Definition assigned (dt : dtype) (v w : val) : Prop :=
  match dt with
  | DFloat => exists a, reads v a /\ w = VFloat a
  | DInt =>
      match v with
      | VInt k => w = VInt k
      | VBool b => w = VInt (if b then 1 else 0)
      | VFloat (Fin q) => exists k, chopped q k /\ w = VInt k
      | _ => False
      end
  | DBool => exists b, w = VBool b /\ (b = false <-> v = VNone \/ v = VStr "" \/ reads v (Fin 0%Qc))
  | DStr => exists s, v = VStr s /\ w = v
  | DObj => w = v
  end.
(** In the end all numbers approaching [a] are less than those approaching
    [b]. *)
Definition less_in_the_limit (a b : num) : Prop :=
  a <> NaN /\ b <> NaN /\
  forall p q, approaches p a -> approaches q b -> exists N, forall n, N <= n -> (p n < q n)%Q.
Definition compares (op : cmp_op) (a b : num) : Prop :=
  match op with
  | CLt => less_in_the_limit a b
  | CGt => less_in_the_limit b a
  | CLe => less_in_the_limit a b \/ a = b /\ a <> NaN
  | CGe => less_in_the_limit b a \/ a = b /\ a <> NaN
  | CEq => a = b /\ a <> NaN
  | CNe => ~ (a = b /\ a <> NaN)
  end.
