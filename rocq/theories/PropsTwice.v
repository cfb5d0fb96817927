(** C99: normalising what is normalised already. *)
From Verif Require Import SpecTwice TwiceFacts.
From Verif Require Import PropsLarry PropsOps PropsNumeric LawsFacts SpecFacts.

(** Without infinities, what [demean] and [demedian] return is changed by
    neither of them a second time; one undoes the other; [zscore] does not
    notice either. *)
Theorem C99_centred : forall sqrt y axis a b, valid y -> no_infinite y -> larry_demean y axis = Ok a -> larry_demedian y axis = Ok b ->
  larry_demean a axis = Ok a /\ larry_demean b axis = Ok a /\ larry_demedian a axis = Ok b /\ larry_demedian b axis = Ok b /\
  larry_zscore sqrt a axis = larry_zscore sqrt y axis /\ larry_zscore sqrt b axis = larry_zscore sqrt y axis.
Proof. exact centred_again. Qed.
(** What [zscore] returns is changed neither by [zscore] nor by [demean]. *)
Theorem C99_zscore : forall sqrt y axis z, square_root sqrt -> valid y -> no_infinite y -> larry_zscore sqrt y axis = Ok z ->
  larry_zscore sqrt z axis = Ok z /\ larry_demean z axis = Ok z.
Proof. exact zscored_again. Qed.
(** There are square roots. *)
Theorem C99_square_root : square_root exact_root /\ forall q r, exact_root (Fin q) = Fin r <-> (0 <= r /\ r * r = q)%Qc.
Proof. exact (conj exact_square_root exact_root_spec). Qed.
(** The ranks of what [demean] and [demedian] return are those of the larry. *)
Theorem C99_ranking_centred : forall ndtri norm y axis a b, valid y -> no_infinite y -> larry_demean y axis = Ok a -> larry_demedian y axis = Ok b ->
  larry_ranking ndtri a axis norm = larry_ranking ndtri y axis norm /\ larry_ranking ndtri b axis norm = larry_ranking ndtri y axis norm.
Proof. exact ranked_centred. Qed.
(** The ranks of ranks are those of the larry, with infinities too. *)
Theorem C99_ranking : forall ndtri norm norm' y axis r, valid y -> norm = NormOne \/ norm = NormN -> larry_ranking ndtri y axis norm = Ok r ->
  larry_ranking ndtri r axis norm' = larry_ranking ndtri y axis norm'.
Proof. exact ranked_again. Qed.

Definition tw (f : list num) : larry := Larry (Nda DFloat (Arr [1; length f] (VFloat <$> f))) [[LStr "a"]; (fun k => LInt (Z.of_nat k)) <$> seq 0 (length f)].
Definition tw1 : larry := tw [num_of_Z 1; NaN; num_of_Z 3; num_of_Z 8].
Example C99_centred_ex :
  valid tw1 /\ no_infinite tw1 /\
  larry_demean tw1 (Some 1%Z) = Ok (tw [num_of_Z (-3); NaN; num_of_Z (-1); num_of_Z 4]) /\
  larry_demedian tw1 (Some (-1)%Z) = Ok (tw [num_of_Z (-2); NaN; num_of_Z 0; num_of_Z 5]) /\
  larry_demean (tw [num_of_Z (-2); NaN; num_of_Z 0; num_of_Z 5]) None = Ok (tw [num_of_Z (-3); NaN; num_of_Z (-1); num_of_Z 4]).
Proof.
  assert (valid tw1) by (unfold tw1, tw; solve_valid). split; [done|]. split; [apply no_infinite_data; [done|]; vm_compute; repeat constructor; by intros [=]|]. by_compute.
Qed.
Definition tw2 : larry := tw [num_of_Z 2; NaN; num_of_Z 6].
Example C99_zscore_ex :
  valid tw2 /\ no_infinite tw2 /\
  larry_zscore exact_root tw2 (Some 1%Z) = Ok (tw [num_of_Z (-1); NaN; num_of_Z 1]) /\
  larry_zscore exact_root (tw [num_of_Z (-1); NaN; num_of_Z 1]) (Some 1%Z) = Ok (tw [num_of_Z (-1); NaN; num_of_Z 1]).
Proof.
  assert (valid tw2) by (unfold tw2, tw; solve_valid). split; [done|]. split; [apply no_infinite_data; [done|]; vm_compute; repeat constructor; by intros [=]|]. by_compute.
Qed.
Example C99_square_root_ex : exact_root (num_of_Z 49) = num_of_Z 7 /\ exact_root (num_of_Z 2) = NaN.
Proof. by_compute. Qed.
Example C99_ranking_centred_ex : let ndtri := fun n : num => n in
  larry_ranking ndtri tw1 (Some 1%Z) NormOne = Ok (tw [num_of_Z (-1); NaN; num_of_Z 0; num_of_Z 1]) /\
  larry_ranking ndtri (tw [num_of_Z (-3); NaN; num_of_Z (-1); num_of_Z 4]) (Some 1%Z) NormOne = Ok (tw [num_of_Z (-1); NaN; num_of_Z 0; num_of_Z 1]).
Proof. cbv zeta. by_compute. Qed.
Definition tw3 : larry := tw [num_of_Z 5; PInf; NaN; num_of_Z 4].
Example C99_ranking_ex : let ndtri := fun n : num => n in
  larry_ranking ndtri tw3 (Some 1%Z) NormN = Ok (tw [num_div (num_of_Z 3) (num_of_Z 2); num_of_Z 3; NaN; num_of_Z 0]) /\
  larry_ranking ndtri (tw [num_div (num_of_Z 3) (num_of_Z 2); num_of_Z 3; NaN; num_of_Z 0]) (Some 1%Z) NormOne =
    larry_ranking ndtri tw3 (Some 1%Z) NormOne.
Proof. cbv zeta. by_compute. Qed.
(** With an infinity nothing is left after the second time. *)
Example C99_infinite_ex :
  larry_demean (tw [num_of_Z 1; PInf]) (Some 1%Z) = Ok (tw [NInf; NaN]) /\ larry_demean (tw [NInf; NaN]) (Some 1%Z) = Ok (tw [NaN; NaN]).
Proof. by_compute. Qed.

Print Assumptions C99_centred.
Print Assumptions C99_zscore.
Print Assumptions C99_square_root.
Print Assumptions C99_ranking_centred.
Print Assumptions C99_ranking.
