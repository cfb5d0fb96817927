(** C114: the groups can be computed one at a time. *)
From Verif Require Import LawsFacts Numeric SpecFacts GroupFacts PropsLarry PropsOps PropsNumeric PropsFarray PropsGroup.
From Verif Require Import ApartFacts PropsNaming.

Theorem C114_mean : forall y y' group h a ax l gs,
  valid y -> numeric_larry y -> valid y' -> nonempty y' -> numeric_larry y' -> valid group -> length (llabel group) = 1 ->
  axis_is y a ax -> llabel y !! ax = Some l -> groups_of group l gs -> groups_sortable gs -> group_part group h ax y y' ->
  exists z b, larry_group_mean y (Some group) a = Ok z /\ larry_reduce RMean y' (Some a) = Ok b /\ spread_over y' ax z b.
Proof. exact apart_mean. Qed.
Theorem C114_median : forall y y' group h a ax l gs,
  valid y -> numeric_larry y -> valid y' -> nonempty y' -> numeric_larry y' -> valid group -> length (llabel group) = 1 ->
  axis_is y a ax -> llabel y !! ax = Some l -> groups_of group l gs -> groups_sortable gs -> group_part group h ax y y' ->
  exists z b, larry_group_median y (Some group) a = Ok z /\ larry_reduce RMedian y' (Some a) = Ok b /\ spread_over y' ax z b.
Proof. exact apart_median. Qed.
Theorem C114_ranking : forall ndtri y y' group h a ax l gs,
  valid y -> numeric_larry y -> valid y' -> numeric_larry y' -> valid group -> length (llabel group) = 1 ->
  axis_is y a ax -> llabel y !! ax = Some l -> groups_of group l gs -> groups_sortable gs -> group_part group h ax y y' ->
  exists z z', larry_group_ranking y (Some group) a = Ok z /\ larry_ranking ndtri y' (Some a) NormOne = Ok z' /\ same_where_kept z z'.
Proof. exact apart_ranking. Qed.

Definition ex_part : larry := Larry (Nda DFloat (Arr [2; 2] [vf 1; vf 3; vf 4; vf (-6)])) [[LStr "a"; LStr "b"]; [LInt 1; LInt 3]].
Example C114_example :
  larry_group_mean exm (Some ex_str) 1 = Ok (Larry (Nda DFloat (Arr [2; 3] [vf 2; VFloat NaN; vf 2; vf (-1); vf 5; vf (-1)])) (llabel exm)) /\
  larry_reduce RMean ex_part (Some 1%Z) = Ok (OLar (Larry (Nda DFloat (Arr [2] [vf 2; vf (-1)])) (take 1 (llabel exm)))) /\
  larry_group_ranking exm (Some ex_str) 1 = Ok (Larry (Nda DFloat (Arr [2; 3] [vf (-1); VFloat NaN; vf 1; vf 1; vf 0; vf (-1)])) (llabel exm)) /\
  larry_ranking id ex_part (Some 1%Z) NormOne = Ok (Larry (Nda DFloat (Arr [2; 2] [vf (-1); vf 1; vf 1; vf (-1)])) (llabel ex_part)).
Proof. by_compute. Qed.
Example C114_part : group_part ex_str (VStr "s") 1 exm ex_part.
Proof.
  exists [LInt 1; LInt 2; LInt 3], [LInt 1; LInt 3]. split; [done|]. split.
  { apply kept_yes; [exists (VStr "s"); done|]. apply kept_no; [intros (g & Hg & Hq); vm_compute in Hg; by simplify_eq|]. apply kept_yes; [exists (VStr "s"); done|]. apply kept_nil. }
  split; [done|]. intros ls Hg. inversion Hg as [|u ? us ? Hu Hus]; subst. inversion Hus as [|x ? us' ? Hx Hus']; subst. inversion Hus'; subst.
  repeat (apply elem_of_cons in Hx as [->|Hx]); [..|by apply elem_of_nil in Hx]; repeat (apply elem_of_cons in Hu as [->|Hu]); try (by apply elem_of_nil in Hu); reflexivity.
Qed.

Print Assumptions C114_mean.
Print Assumptions C114_median.
Print Assumptions C114_ranking.
