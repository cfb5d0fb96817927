(** C108: windows as wide as the data, windows of one element, and the last
    running total. *)
From Verif Require Import LawsFacts Numeric MoveFacts MovingFacts SpecFacts PropsLarry PropsOps PropsNumeric PropsFarray PropsMove PropsMoving.
From Verif Require Import SpanFacts Span2Facts.

Theorem C108_whole : forall mop op y a ax l,
  moving_version mop op -> valid y -> nonempty y -> numeric_larry y -> axis_is y a ax -> llabel y !! ax = Some l ->
  exists z b, larry_move mop y (Z.of_nat (length l)) (Some a) = Ok z /\ larry_reduce op y (Some a) = Ok b /\ last_only y ax z b.
Proof. exact window_whole. Qed.
Theorem C108_whole_median : forall layout method y a ax l,
  good_layout layout -> valid y -> nonempty y -> numeric_larry y -> axis_is y a ax -> llabel y !! ax = Some l ->
  method = MLoop \/ method = MStrides /\ length (llabel y) <= 3 ->
  exists z b, larry_move_median layout y (Z.of_nat (length l)) (Some a) method = Ok z /\ larry_reduce RMedian y (Some a) = Ok b /\ last_only y ax z b.
Proof. exact window_whole_median. Qed.
(** The standard deviation, for every square root that keeps NaN. *)
Theorem C108_whole_std : forall root y a ax l,
  root NaN = NaN -> valid y -> nonempty y -> numeric_larry y -> axis_is y a ax -> llabel y !! ax = Some l ->
  exists z b, larry_move (MStd root) y (Z.of_nat (length l)) (Some a) = Ok z /\ larry_std root y (Some a) 0 = Ok b /\ last_only y ax z b.
Proof. exact window_whole_std. Qed.
(** The moving rank is lastrank. *)
Theorem C108_whole_ranking : forall layout method y a ax l,
  good_layout layout -> valid y -> nonempty y -> numeric_larry y -> axis_is y a ax -> llabel y !! ax = Some l ->
  method = MLoop \/ method = MStrides /\ length (llabel y) <= 3 ->
  exists z b, larry_move_ranking layout y (Z.of_nat (length l)) (Some a) method = Ok z /\ larry_lastrank y a = Ok b /\ last_only y ax z b.
Proof. exact window_whole_ranking. Qed.
Theorem C108_single : forall mop op y a ax,
  moving_version mop op -> valid y -> nonempty y -> numeric_larry y -> axis_is y a ax -> mop = MMin \/ mop = MMax \/ no_inf y ->
  exists z, larry_move mop y 1 (Some a) = Ok z /\ as_floats y z.
Proof. exact window_single. Qed.
Theorem C108_single_median : forall layout method y a ax,
  good_layout layout -> valid y -> nonempty y -> numeric_larry y -> axis_is y a ax ->
  method = MLoop \/ method = MStrides /\ length (llabel y) <= 3 ->
  exists z, larry_move_median layout y 1 (Some a) method = Ok z /\ as_floats y z.
Proof. exact window_single_median. Qed.
Theorem C108_cumsum : forall y a ax z b,
  valid y -> nonempty y -> axis_is y a ax -> larry_cum CSum y (Some a) = Ok z -> larry_reduce RSum y (Some a) = Ok b -> ends_in y ax z b.
Proof. exact cumsum_last. Qed.
Theorem C108_cumprod : forall y a ax z b,
  valid y -> nonempty y -> axis_is y a ax -> ldtype y = DFloat \/ arithmetic (ldtype y) /\ length (llabel y) = 1 ->
  larry_cum CProd y (Some a) = Ok z -> larry_prod y (Some a) = Ok b -> ends_in y ax z b.
Proof. exact cumprod_last. Qed.

Example C108_example :
  larry_move MSum exm 3 (Some 1%Z) = Ok (Larry (Nda DFloat (Arr [2; 3] [VFloat NaN; VFloat NaN; vf 4; VFloat NaN; VFloat NaN; vf 3])) (llabel exm)) /\
  larry_reduce RSum exm (Some 1%Z) = Ok (OLar (Larry (Nda DFloat (Arr [2] [vf 4; vf 3])) (take 1 (llabel exm)))) /\
  larry_move MMax exm 3 (Some 1%Z) = Ok (Larry (Nda DFloat (Arr [2; 3] [VFloat NaN; VFloat NaN; vf 3; VFloat NaN; VFloat NaN; vf 5])) (llabel exm)) /\
  larry_move (MStd id) exm 3 (Some 1%Z) = Ok (Larry (Nda DFloat (Arr [2; 3] [VFloat NaN; VFloat NaN; vf 1; VFloat NaN; VFloat NaN; VFloat (Fin (Q2Qc (74 # 3)))])) (llabel exm)) /\
  larry_std id exm (Some 1%Z) 0 = Ok (OLar (Larry (Nda DFloat (Arr [2] [vf 1; VFloat (Fin (Q2Qc (74 # 3)))])) (take 1 (llabel exm)))) /\
  larry_move_ranking view_of exm 3 (Some 1%Z) MLoop = Ok (Larry (Nda DFloat (Arr [2; 3] [VFloat NaN; VFloat NaN; vf 1; VFloat NaN; VFloat NaN; vf (-1)])) (llabel exm)) /\
  larry_lastrank exm 1 = Ok (OLar (Larry (Nda DFloat (Arr [2] [vf 1; vf (-1)])) (take 1 (llabel exm)))) /\
  larry_prod exm (Some 1%Z) = Ok (OLar (Larry (Nda DFloat (Arr [2] [vf 3; vf (-120)])) (take 1 (llabel exm)))) /\
  larry_move MMean exm 1 (Some 0%Z) = Ok exm /\
  larry_cum CSum exm (Some 1%Z) = Ok (Larry (Nda DFloat (Arr [2; 3] [vf 1; VFloat NaN; vf 4; vf 4; vf 9; vf 3])) (llabel exm)).
Proof. by_compute. Qed.

Print Assumptions C108_whole.
Print Assumptions C108_whole_median.
Print Assumptions C108_whole_std.
Print Assumptions C108_whole_ranking.
Print Assumptions C108_single.
Print Assumptions C108_single_median.
Print Assumptions C108_cumsum.
Print Assumptions C108_cumprod.
