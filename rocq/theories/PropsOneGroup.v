(** C109: all labels in one group, and every label in a group of its own. *)
From Verif Require Import LawsFacts Numeric SpecFacts GroupFacts PropsLarry PropsOps PropsNumeric PropsFarray PropsGroup.
From Verif Require Import OneGroupFacts.

Theorem C109_one_mean : forall y group a ax l gs,
  valid y -> nonempty y -> numeric_larry y -> valid group -> length (llabel group) = 1 -> axis_is y a ax -> llabel y !! ax = Some l ->
  groups_of group l gs -> all_one_group gs ->
  exists z b, larry_group_mean y (Some group) a = Ok z /\ larry_reduce RMean y (Some a) = Ok b /\ spread y ax z b.
Proof. exact one_group_mean. Qed.
Theorem C109_one_median : forall y group a ax l gs,
  valid y -> nonempty y -> numeric_larry y -> valid group -> length (llabel group) = 1 -> axis_is y a ax -> llabel y !! ax = Some l ->
  groups_of group l gs -> all_one_group gs ->
  exists z b, larry_group_median y (Some group) a = Ok z /\ larry_reduce RMedian y (Some a) = Ok b /\ spread y ax z b.
Proof. exact one_group_median. Qed.
Theorem C109_one_ranking : forall ndtri y group a ax l gs,
  valid y -> nonempty y -> numeric_larry y -> valid group -> length (llabel group) = 1 -> axis_is y a ax -> llabel y !! ax = Some l ->
  groups_of group l gs -> all_one_group gs ->
  exists z, larry_group_ranking y (Some group) a = Ok z /\ larry_ranking ndtri y (Some a) NormOne = Ok z.
Proof. exact one_group_ranking. Qed.
Theorem C109_own_mean : forall y group a ax l gs,
  valid y -> numeric_larry y -> valid group -> length (llabel group) = 1 -> axis_is y a ax -> llabel y !! ax = Some l ->
  groups_of group l gs -> groups_sortable gs -> own_groups gs -> exists z, larry_group_mean y (Some group) a = Ok z /\ as_floats y z.
Proof. exact own_group_mean. Qed.
Theorem C109_own_median : forall y group a ax l gs,
  valid y -> numeric_larry y -> valid group -> length (llabel group) = 1 -> axis_is y a ax -> llabel y !! ax = Some l ->
  groups_of group l gs -> groups_sortable gs -> own_groups gs -> exists z, larry_group_median y (Some group) a = Ok z /\ as_floats y z.
Proof. exact own_group_median. Qed.
Theorem C109_own_ranking : forall y group a ax l gs,
  valid y -> numeric_larry y -> valid group -> length (llabel group) = 1 -> axis_is y a ax -> llabel y !! ax = Some l ->
  groups_of group l gs -> groups_sortable gs -> own_groups gs -> exists z, larry_group_ranking y (Some group) a = Ok z /\ zero_where_present y z.
Proof. exact own_group_ranking. Qed.

Definition ex_one : larry := Larry (Nda DStr (Arr [4] [VStr "s"; VStr "t"; VStr "s"; VStr "s"])) [[LInt 3; LInt 9; LInt 1; LInt 2]].
Definition ex_own : larry := Larry (Nda DInt (Arr [4] [VInt 5; VInt 6; VInt 7; VInt 8])) [[LInt 3; LInt 9; LInt 1; LInt 2]].
Example C109_example :
  groups_of ex_one [LInt 1; LInt 2; LInt 3] [VStr "s"; VStr "s"; VStr "s"] /\ all_one_group [VStr "s"; VStr "s"; VStr "s"] /\
  groups_of ex_own [LInt 1; LInt 2; LInt 3] [VInt 7; VInt 8; VInt 5] /\
  larry_group_mean exm (Some ex_one) 1 = Ok (Larry (Nda DFloat (Arr [2; 3] [vf 2; vf 2; vf 2; vf 1; vf 1; vf 1])) (llabel exm)) /\
  larry_reduce RMean exm (Some 1%Z) = Ok (OLar (Larry (Nda DFloat (Arr [2] [vf 2; vf 1])) (take 1 (llabel exm)))) /\
  larry_group_ranking exm (Some ex_one) 1 = larry_ranking id exm (Some 1%Z) NormOne /\
  larry_group_median exm (Some ex_own) 1 = Ok exm /\
  larry_group_ranking exm (Some ex_own) 1 = Ok (Larry (Nda DFloat (Arr [2; 3] [vf 0; VFloat NaN; vf 0; vf 0; vf 0; vf 0])) (llabel exm)).
Proof.
  split; [repeat constructor|]. split. { intros g g' Hg Hg'. rewrite !elem_of_cons, elem_of_nil in Hg, Hg'. by destruct Hg as [->|[->|[->|[]]]], Hg' as [->|[->|[->|[]]]]. }
  split; [repeat constructor|]. by_compute.
Qed.
Example C109_own : own_groups [VInt 7; VInt 8; VInt 5].
Proof.
  split. { intros g Hg. rewrite !elem_of_cons, elem_of_nil in Hg. by destruct Hg as [->|[->|[->|[]]]]. }
  intros [|[|[|i]]] [|[|[|j]]] g g'; simpl; intros H H' E; simplify_eq; try done; destruct E as (E & _ & _); by vm_compute in E.
Qed.

Print Assumptions C109_one_mean.
Print Assumptions C109_one_median.
Print Assumptions C109_one_ranking.
Print Assumptions C109_own_mean.
Print Assumptions C109_own_median.
Print Assumptions C109_own_ranking.
