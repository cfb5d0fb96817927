(** C90: labels are ordered and sorted as Python does. *)
From Verif Require Import OrderFacts.

Theorem C90_order : forall a b, plain a -> plain b -> orderable a b -> (lab_lt a b <-> before a b).
Proof. exact before_lab_lt. Qed.
Theorem C90_total : forall a b, lab_lt a b \/ a = b \/ lab_lt b a.
Proof. exact lab_total. Qed.
Theorem C90_transitive : forall a b c, lab_lt a b -> lab_lt b c -> lab_lt a c.
Proof. exact lab_lt_trans. Qed.
Theorem C90_comparable : forall a b, comparable a b = true <-> orderable a b.
Proof. exact comparable_spec. Qed.
(** [sorted(l)]. *)
Theorem C90_sorted : forall l l', Forall plain l ->
  (py_sorted l = Ok l' <->
   (forall a b, a ∈ l -> b ∈ l -> a = b \/ orderable a b) /\ l' ≡ₚ l /\ StronglySorted (fun a b => a = b \/ before a b) l').
Proof. exact py_sorted_iff. Qed.
Theorem C90_sorted_error : forall l,
  (exists a b, a ∈ l /\ b ∈ l /\ a <> b /\ ~ orderable a b) -> py_sorted l = Err TypeError.
Proof. exact py_sorted_error. Qed.

Example C90_example :
  py_sorted [LStr "b"; LStr "ab"; LStr "a"; LStr "B"] = Ok [LStr "B"; LStr "a"; LStr "ab"; LStr "b"] /\
  py_sorted [LInt 3; LInt (-2); LInt 10] = Ok [LInt (-2); LInt 3; LInt 10] /\
  py_sorted [LTup [LInt 2; LStr "a"]; LTup [LInt 1; LStr "z"]; LTup [LInt 1]] = Ok [LTup [LInt 1]; LTup [LInt 1; LStr "z"]; LTup [LInt 2; LStr "a"]] /\
  py_sorted [LTime 9 5 0 0 None; LTime 9 4 59 7 None] = Ok [LTime 9 4 59 7 None; LTime 9 5 0 0 None] /\
  py_sorted [LTup [LInt 1; LStr "z"]; LTup [LInt 1; LInt 2]] = Err TypeError /\
  py_sorted [LTup [LInt 1; LStr "z"]; LTup [LInt 2; LInt 2]] = Ok [LTup [LInt 1; LStr "z"]; LTup [LInt 2; LInt 2]] /\
  py_sorted [LInt 1; LStr "a"] = Err TypeError.
Proof. by vm_compute. Qed.
Example C90_plain_example : plain (LTup [LTime 9 5 0 0 None; LStr "a"]) /\ orderable (LTup [LInt 1; LStr "z"]) (LTup [LInt 2; LInt 2]) /\
  ~ orderable (LTup [LInt 1; LStr "z"]) (LTup [LInt 1; LInt 2]).
Proof.
  split; [repeat constructor; unfold real_time; lia|]. rewrite <-!comparable_spec. by vm_compute.
Qed.

Print Assumptions C90_order.
Print Assumptions C90_total.
Print Assumptions C90_transitive.
Print Assumptions C90_comparable.
Print Assumptions C90_sorted.
Print Assumptions C90_sorted_error.
