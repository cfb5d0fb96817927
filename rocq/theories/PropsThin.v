(** C113: labels at which everything is missing do not count. *)
From Verif Require Import LawsFacts Numeric SpecFacts PropsLarry PropsOps PropsNumeric PropsFarray.
From Verif Require Import GroupFacts PropsGroup.
From Verif Require Import ThinFacts SpanFacts Thin2Facts.

Theorem C113_reduce : forall op y y' a ax,
  op = RSum \/ op = RMean \/ op = RMedian \/ op = RMin \/ op = RMax \/ (exists d, op = RVar d) ->
  valid y -> nonempty y -> arithmetic (ldtype y) -> valid y' -> nonempty y' -> arithmetic (ldtype y') -> axis_is y a ax -> thinned ax y y' ->
  exists b b', larry_reduce op y (Some a) = Ok b /\ larry_reduce op y' (Some a) = Ok b' /\ same_numbers_out (delete ax (llabel y)) b b'.
Proof. exact thin_reduce_ops. Qed.
Theorem C113_std : forall root d y y' a ax,
  valid y -> nonempty y -> arithmetic (ldtype y) -> valid y' -> nonempty y' -> arithmetic (ldtype y') -> axis_is y a ax -> thinned ax y y' ->
  exists b b', larry_std root y (Some a) d = Ok b /\ larry_std root y' (Some a) d = Ok b' /\ same_numbers_out (delete ax (llabel y)) b b'.
Proof. exact thin_std. Qed.
Theorem C113_ranking : forall ndtri y y' a ax,
  valid y -> numeric_larry y -> valid y' -> numeric_larry y' -> axis_is y a ax -> thinned ax y y' ->
  exists z z', larry_ranking ndtri y (Some a) NormOne = Ok z /\ larry_ranking ndtri y' (Some a) NormOne = Ok z' /\ same_where_kept z z'.
Proof. exact thin_ranking. Qed.
Theorem C113_demean : forall y y' a ax,
  valid y -> numeric_larry y -> valid y' -> numeric_larry y' -> axis_is y a ax -> thinned ax y y' ->
  exists z z', larry_demean y (Some a) = Ok z /\ larry_demean y' (Some a) = Ok z' /\ same_where_kept z z'.
Proof. exact thin_demean. Qed.
Theorem C113_demedian : forall y y' a ax,
  valid y -> numeric_larry y -> valid y' -> numeric_larry y' -> axis_is y a ax -> thinned ax y y' ->
  exists z z', larry_demedian y (Some a) = Ok z /\ larry_demedian y' (Some a) = Ok z' /\ same_where_kept z z'.
Proof. exact thin_demedian. Qed.
Theorem C113_zscore : forall root y y' a ax,
  valid y -> numeric_larry y -> valid y' -> numeric_larry y' -> axis_is y a ax -> thinned ax y y' ->
  exists z z', larry_zscore root y (Some a) = Ok z /\ larry_zscore root y' (Some a) = Ok z' /\ same_where_kept z z'.
Proof. exact thin_zscore. Qed.
Theorem C113_groups : forall m y y' group a ax l l' gs gs',
  m ∈ [larry_group_mean; larry_group_median; larry_group_ranking] ->
  valid y -> numeric_larry y -> valid y' -> numeric_larry y' -> valid group -> length (llabel group) = 1 ->
  axis_is y a ax -> llabel y !! ax = Some l -> llabel y' !! ax = Some l' ->
  groups_of group l gs -> groups_of group l' gs' -> groups_sortable gs -> groups_sortable gs' -> thinned ax y y' ->
  exists z z', m y (Some group) a = Ok z /\ m y' (Some group) a = Ok z' /\ same_where_kept z z'.
Proof. exact thin_group. Qed.

Definition ex_thick : larry :=
  Larry (Nda DFloat (Arr [2; 3] [vf 1; VFloat NaN; vf 3; VFloat NaN; VFloat NaN; vf 5])) [[LStr "a"; LStr "b"]; [LInt 1; LInt 2; LInt 3]].
Definition ex_thin : larry :=
  Larry (Nda DFloat (Arr [2; 2] [vf 1; vf 3; VFloat NaN; vf 5])) [[LStr "a"; LStr "b"]; [LInt 1; LInt 3]].
Example C113_example :
  let r vs := OLar (Larry (Nda DFloat (Arr [2] vs)) [[LStr "a"; LStr "b"]]) in
  larry_reduce RMean ex_thick (Some 1%Z) = Ok (r [vf 2; vf 5]) /\ larry_reduce RMean ex_thin (Some 1%Z) = Ok (r [vf 2; vf 5]) /\
  larry_ranking id ex_thick (Some 1%Z) NormOne = Ok (Larry (Nda DFloat (Arr [2; 3] [vf (-1); VFloat NaN; vf 1; VFloat NaN; VFloat NaN; vf 0])) (llabel ex_thick)) /\
  larry_ranking id ex_thin (Some 1%Z) NormOne = Ok (Larry (Nda DFloat (Arr [2; 2] [vf (-1); vf 1; VFloat NaN; vf 0])) (llabel ex_thin)) /\
  larry_demean ex_thin (Some 1%Z) = Ok (Larry (Nda DFloat (Arr [2; 2] [vf (-1); vf 1; VFloat NaN; vf 0])) (llabel ex_thin)).
Proof. cbv zeta. by_compute. Qed.
Definition ex_thin_group : larry := Larry (Nda DStr (Arr [3] [VStr "s"; VStr "s"; VStr "t"])) [[LInt 1; LInt 2; LInt 3]].
Example C113_groups_example :
  groups_of ex_thin_group [LInt 1; LInt 3] [VStr "s"; VStr "t"] /\
  larry_group_mean ex_thick (Some ex_thin_group) 1 = Ok (Larry (Nda DFloat (Arr [2; 3] [vf 1; vf 1; vf 3; VFloat NaN; VFloat NaN; vf 5])) (llabel ex_thick)) /\
  larry_group_mean ex_thin (Some ex_thin_group) 1 = Ok (Larry (Nda DFloat (Arr [2; 2] [vf 1; vf 3; VFloat NaN; vf 5])) (llabel ex_thin)).
Proof. unfold groups_of. split; [repeat constructor|]. by_compute. Qed.
Example C113_thinned : thinned 1 ex_thick ex_thin.
Proof.
  exists (fun x => x <> LInt 2), [LInt 1; LInt 2; LInt 3], [LInt 1; LInt 3]. split; [done|]. split.
  { apply kept_yes; [done|]. apply kept_no; [by intros K; apply K|]. apply kept_yes; [done|]. apply kept_nil. }
  split; [done|]. intros ls x Hg Hx. inversion Hg as [|u ? us ? Hu Hus]; subst. inversion Hus; subst.
  repeat (apply elem_of_cons in Hx as [->|Hx]); [..|by apply elem_of_nil in Hx]; repeat (apply elem_of_cons in Hu as [->|Hu]); try (by apply elem_of_nil in Hu);
    (split; intros HP; first [reflexivity|by destruct HP]).
Qed.

Print Assumptions C113_reduce.
Print Assumptions C113_std.
Print Assumptions C113_ranking.
Print Assumptions C113_demean.
Print Assumptions C113_demedian.
Print Assumptions C113_zscore.
Print Assumptions C113_groups.
