(** C111: the names of groups do not matter, nor what other groups hold. *)
From Verif Require Import LawsFacts Numeric SpecFacts GroupFacts PropsLarry PropsOps PropsNumeric PropsFarray PropsGroup.
From Verif Require Import NamingFacts.

Theorem C111_names : forall m y g1 g2 a ax l gs1 gs2,
  m ∈ [larry_group_mean; larry_group_median; larry_group_ranking] ->
  valid y -> numeric_larry y -> valid g1 -> valid g2 -> length (llabel g1) = 1 -> length (llabel g2) = 1 ->
  axis_is y a ax -> llabel y !! ax = Some l -> groups_of g1 l gs1 -> groups_of g2 l gs2 -> groups_sortable gs1 -> groups_sortable gs2 -> same_partition gs1 gs2 ->
  exists z, m y (Some g1) a = Ok z /\ m y (Some g2) a = Ok z.
Proof. exact groups_renamed. Qed.
Theorem C111_others : forall m y y' group h a ax l gs,
  m ∈ [larry_group_mean; larry_group_median; larry_group_ranking] ->
  valid y -> numeric_larry y -> valid y' -> numeric_larry y' -> valid group -> length (llabel group) = 1 ->
  axis_is y a ax -> llabel y !! ax = Some l -> groups_of group l gs -> groups_sortable gs -> agree_in group h ax y y' ->
  exists z z', m y (Some group) a = Ok z /\ m y' (Some group) a = Ok z' /\ agree_in group h ax z z'.
Proof. exact groups_local. Qed.

Definition ex_str : larry := Larry (Nda DStr (Arr [3] [VStr "s"; VStr "t"; VStr "s"])) [[LInt 1; LInt 2; LInt 3]].
Definition ex_num : larry := Larry (Nda DInt (Arr [3] [VInt 1; VInt 9; VInt 9])) [[LInt 2; LInt 3; LInt 1]].
Definition ex_other : larry :=
  Larry (Nda DFloat (Arr [2; 3] [vf 1; vf 70; vf 3; vf 4; VFloat PInf; vf (-6)])) [[LStr "a"; LStr "b"]; [LInt 1; LInt 2; LInt 3]].
Example C111_example :
  groups_of ex_str [LInt 1; LInt 2; LInt 3] [VStr "s"; VStr "t"; VStr "s"] /\ groups_of ex_num [LInt 1; LInt 2; LInt 3] [VInt 9; VInt 1; VInt 9] /\
  larry_group_mean exm (Some ex_str) 1 = Ok (Larry (Nda DFloat (Arr [2; 3] [vf 2; VFloat NaN; vf 2; vf (-1); vf 5; vf (-1)])) (llabel exm)) /\
  larry_group_mean exm (Some ex_num) 1 = larry_group_mean exm (Some ex_str) 1 /\
  larry_group_mean ex_other (Some ex_str) 1 = Ok (Larry (Nda DFloat (Arr [2; 3] [vf 2; vf 70; vf 2; vf (-1); VFloat PInf; vf (-1)])) (llabel exm)).
Proof. unfold groups_of. split; [repeat constructor|]. split; [repeat constructor|]. by_compute. Qed.
Example C111_partition : same_partition [VStr "s"; VStr "t"; VStr "s"] [VInt 9; VInt 1; VInt 9].
Proof. split; [done|]. intros [|[|[|i]]] [|[|[|j]]] g h g' h' H1 H2 H3 H4; try done; cbn in H1, H2, H3, H4; simplify_eq; refine (bool_decide_unpack _ _); vm_compute; exact I. Qed.
Example C111_agree : agree_in ex_str (VStr "s") 1 exm ex_other.
Proof.
  split; [done|]. intros l ls x g [= <-] Hx Hg Hc Hq. inversion Hg as [|u ? us ? Hu Hus]; subst. inversion Hus; subst.
  repeat (apply elem_of_cons in Hx as [->|Hx]); [..|by apply elem_of_nil in Hx]; repeat (apply elem_of_cons in Hu as [->|Hu]); try (by apply elem_of_nil in Hu);
    try reflexivity; vm_compute in Hc; by simplify_eq.
Qed.

Print Assumptions C111_names.
Print Assumptions C111_others.
