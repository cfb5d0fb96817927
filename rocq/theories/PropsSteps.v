(** C100: two calls that do the same as one. *)
From Verif Require Import StepsFacts Steps2Facts Steps3Facts.
From Verif Require Import Align Missing Numeric PropsLarry PropsOps PropsAlign PropsNumeric SpecFacts SpecNum.

(** Morphing twice gives what the second morph gives alone, if the labels it
    wants were not lost by the first; morphing back to the old labels gives the
    larry again, if none was lost. *)
Theorem C100_morph : forall y l1 l2 a old z1 z2, valid y -> missing_dtype (ldtype y) = ldtype y -> axis_label_is y a old ->
  (forall l, l ∈ l2 -> l ∈ old -> l ∈ l1) -> morph y l1 a = Ok z1 -> morph z1 l2 a = Ok z2 -> morph y l2 a = Ok z2.
Proof. exact morph_morph. Qed.
Theorem C100_morph_back : forall y l a old z, valid y -> missing_dtype (ldtype y) = ldtype y -> axis_label_is y a old ->
  (forall x, x ∈ old -> x ∈ l) -> morph y l a = Ok z -> morph z old a = Ok y.
Proof. exact morph_back. Qed.
(** Taking from what was taken. *)
Theorem C100_take : forall y is1 is2 is a z1 z2, valid y -> larry_take y is1 a = Ok z1 -> larry_take z1 is2 a = Ok z2 ->
  mapM (py_get is1) is2 = Some is -> larry_take y is a = Ok z2.
Proof. exact larry_take_take. Qed.
(** Two conditions on the labels of an axis may be put in either order, and one
    twice is the same as once; when nothing is left all axes are lost. *)
Theorem C100_keep_label : forall y op1 op2 a z1 z2 z, valid y -> keep_label y op1 (Some a) = Ok z1 -> keep_label y op2 (Some a) = Ok z2 ->
  keep_label z1 op2 (Some a) = Ok z -> z <> empty_larry -> keep_label z2 op1 (Some a) = Ok z.
Proof. exact keep_keep. Qed.
Theorem C100_keep_label_again : forall y op a z, valid y -> keep_label y op (Some a) = Ok z -> z <> empty_larry -> keep_label z op (Some a) = Ok z.
Proof. exact keep_again. Qed.
(** Lags add up; a lag and its inverse leave the values in place and cost their
    length at both ends. *)
Theorem C100_lag : forall y j k a z1 z2, valid y -> 0 < j -> 0 < k ->
  lag y (Z.of_nat j) (Some a) = Ok z1 -> lag z1 (Z.of_nat k) (Some a) = Ok z2 -> lag y (Z.of_nat (j + k)) (Some a) = Ok z2.
Proof. exact lag_lag_pos. Qed.
Theorem C100_lag_negative : forall y j k a z1 z2, valid y -> 0 < j -> 0 < k ->
  lag y (- Z.of_nat j) (Some a) = Ok z1 -> lag z1 (- Z.of_nat k) (Some a) = Ok z2 -> lag y (- Z.of_nat (j + k)) (Some a) = Ok z2.
Proof. exact lag_lag_neg. Qed.
Theorem C100_lag_back : forall y k a ax l z1 z2, valid y -> 0 < k -> axis_is y a ax -> llabel y !! ax = Some l ->
  lag y (Z.of_nat k) (Some a) = Ok z1 -> lag z1 (- Z.of_nat k) (Some a) = Ok z2 ->
  ldtype z2 = ldtype y /\ llabel z2 = <[ax := take (length l - 2 * k) (drop k l)]> (llabel y) /\
  forall ls, in_grid (llabel z2) ls -> cell z2 ls = cell y ls.
Proof. exact lag_back. Qed.
(** Sorting and then flipping is sorting the other way round; how an axis is
    sorted does not depend on how it was sorted before. *)
Theorem C100_sort_flip : forall y a (reverse : bool) z, valid y -> sortaxis y (Some a) reverse = Ok z ->
  exists w, flipaxis z (Some a) = Ok w /\ sortaxis y (Some a) (negb reverse) = Ok w.
Proof. exact sort_flip. Qed.
Theorem C100_sort_again : forall y a (reverse reverse' : bool) z, valid y -> sortaxis y (Some a) reverse = Ok z ->
  sortaxis z (Some a) reverse' = sortaxis y (Some a) reverse'.
Proof. exact sort_sort. Qed.
(** Of two nested ranges only the narrow one counts, in either order. *)
Theorem C100_clip : forall y lo hi lo' hi' l h l' h' z, valid y ->
  ldtype y = DFloat \/ ldtype y = DInt /\ has_dtype DInt lo = true /\ has_dtype DInt hi = true /\ has_dtype DInt lo' = true /\ has_dtype DInt hi' = true ->
  to_num lo = Some l -> to_num hi = Some h -> to_num lo' = Some l' -> to_num hi' = Some h' ->
  num_le l l' -> num_le l' h' -> num_le h' h -> larry_clip y lo hi = Ok z ->
  larry_clip z lo' hi' = larry_clip y lo' hi' /\
  forall w, larry_clip y lo' hi' = Ok w -> larry_clip w lo hi = Ok w.
Proof. exact clip_clip. Qed.
(** After NaNs were replaced by a number there is nothing to replace. *)
Theorem C100_nan_replace : forall y v n z, valid y -> to_num v = Some n -> n <> NaN -> nan_replace y v = Ok z ->
  forall v' n', to_num v' = Some n' -> nan_replace z v' = Ok z.
Proof. exact replace_again. Qed.
(** Merging a larry with itself changes nothing; three float larrys may be
    merged from the left or from the right. *)
Theorem C100_merge_self : forall y, valid y -> larry_merge y y true = Ok y.
Proof. exact merge_self. Qed.
Theorem C100_merge : forall y1 y2 y3 a z, valid y1 -> valid y2 -> valid y3 -> ldtype y1 = DFloat -> ldtype y2 = DFloat -> ldtype y3 = DFloat ->
  larry_merge y1 y2 true = Ok a -> larry_merge a y3 true = Ok z ->
  exists b, larry_merge y2 y3 true = Ok b /\ larry_merge y1 b true = Ok z.
Proof. exact merge_assoc. Qed.
(** What is aligned stays as it is when aligned again in the same way. *)
Theorem C100_align : forall y1 y2 j cast z1 z2, valid y1 -> valid y2 -> align y1 y2 j cast = Ok (z1, z2) -> align z1 z2 j cast = Ok (z1, z2).
Proof. exact align_again. Qed.
Theorem C100_squeeze : forall y, valid y -> squeeze (squeeze y) = squeeze y.
Proof. exact squeeze_again. Qed.
Theorem C100_maplabel : forall y f g axis z w, maplabel y f axis = Ok z -> maplabel z g axis = Ok w -> maplabel y (fun l => g (f l)) axis = Ok w.
Proof. exact maplabel_twice. Qed.

(** A row of numbers with the given labels. *)
Definition rowl (f : list num) (l : list Z) : larry := Larry (Nda DFloat (Arr [1; length f] (VFloat <$> f))) [[LStr "a"]; LInt <$> l].
Definition st1 : larry := rowl [num_of_Z 4; NaN; num_of_Z 6; num_of_Z 1] [3; 1; 2; 7]%Z.
Example st1_valid : valid st1.
Proof. unfold st1, rowl. solve_valid. Qed.
Example C100_morph_ex :
  morph st1 [LInt 2; LInt 9; LInt 3]%Z 1 = Ok (rowl [num_of_Z 6; NaN; num_of_Z 4] [2; 9; 3]%Z) /\
  morph (rowl [num_of_Z 6; NaN; num_of_Z 4] [2; 9; 3]%Z) [LInt 3; LInt 8]%Z 1 = Ok (rowl [num_of_Z 4; NaN] [3; 8]%Z) /\
  morph st1 [LInt 3; LInt 8]%Z 1 = Ok (rowl [num_of_Z 4; NaN] [3; 8]%Z).
Proof. by_compute. Qed.
(** Ints get missing values by becoming floats, and stay floats. *)
Example C100_morph_back_ex :
  morph st1 (LInt <$> [7; 5; 3; 2; 1]%Z) (-1) = Ok (rowl [num_of_Z 1; NaN; num_of_Z 4; num_of_Z 6; NaN] [7; 5; 3; 2; 1]%Z) /\
  morph (rowl [num_of_Z 1; NaN; num_of_Z 4; num_of_Z 6; NaN] [7; 5; 3; 2; 1]%Z) (LInt <$> [3; 1; 2; 7]%Z) (-1) = Ok st1 /\
  (z ← morph ex3 [LInt 9; LInt 11; LInt 12]%Z 1; w ← morph z [LInt 9; LInt 11]%Z 1; Ok (ldtype w)) = Ok DFloat /\ ldtype ex3 = DInt.
Proof. by_compute. Qed.
Example C100_take_ex :
  larry_take st1 [3; 0; -2]%Z 1 = Ok (rowl [num_of_Z 1; num_of_Z 4; num_of_Z 6] [7; 3; 2]%Z) /\
  larry_take (rowl [num_of_Z 1; num_of_Z 4; num_of_Z 6] [7; 3; 2]%Z) [-1; 0]%Z 1 = Ok (rowl [num_of_Z 6; num_of_Z 1] [2; 7]%Z) /\
  mapM (py_get [3; 0; -2]%Z) [-1; 0]%Z = Some [-2; 3]%Z /\
  larry_take st1 [-2; 3]%Z 1 = Ok (rowl [num_of_Z 6; num_of_Z 1] [2; 7]%Z).
Proof. by_compute. Qed.
Example C100_keep_label_ex :
  keep_label st1 (KGt (LInt 1)) (Some 1%Z) = Ok (rowl [num_of_Z 4; num_of_Z 6; num_of_Z 1] [3; 2; 7]%Z) /\
  keep_label st1 (KLt (LInt 7)) (Some 1%Z) = Ok (rowl [num_of_Z 4; NaN; num_of_Z 6] [3; 1; 2]%Z) /\
  keep_label (rowl [num_of_Z 4; NaN; num_of_Z 6] [3; 1; 2]%Z) (KGt (LInt 1)) (Some 1%Z) = Ok (rowl [num_of_Z 4; num_of_Z 6] [3; 2]%Z) /\
  keep_label (rowl [num_of_Z 4; num_of_Z 6; num_of_Z 1] [3; 2; 7]%Z) (KLt (LInt 7)) (Some 1%Z) = Ok (rowl [num_of_Z 4; num_of_Z 6] [3; 2]%Z) /\
  keep_label (rowl [num_of_Z 4; num_of_Z 6] [3; 2]%Z) (KLt (LInt 7)) (Some 1%Z) = Ok (rowl [num_of_Z 4; num_of_Z 6] [3; 2]%Z).
Proof. by_compute. Qed.
Example C100_lag_ex :
  lag st1 1 (Some 1%Z) = Ok (rowl [num_of_Z 4; NaN; num_of_Z 6] [1; 2; 7]%Z) /\
  lag (rowl [num_of_Z 4; NaN; num_of_Z 6] [1; 2; 7]%Z) 2 (Some 1%Z) = Ok (rowl [num_of_Z 4] [7]%Z) /\
  lag st1 3 (Some 1%Z) = Ok (rowl [num_of_Z 4] [7]%Z) /\
  lag st1 (-1) (Some 1%Z) = Ok (rowl [NaN; num_of_Z 6; num_of_Z 1] [3; 1; 2]%Z) /\
  lag (rowl [NaN; num_of_Z 6; num_of_Z 1] [3; 1; 2]%Z) (-2) (Some 1%Z) = Ok (rowl [num_of_Z 1] [3]%Z) /\
  lag st1 (-3) (Some 1%Z) = Ok (rowl [num_of_Z 1] [3]%Z) /\
  lag (rowl [num_of_Z 4; NaN; num_of_Z 6] [1; 2; 7]%Z) (-1) (Some 1%Z) = Ok (rowl [NaN; num_of_Z 6] [1; 2]%Z).
Proof. by_compute. Qed.
Example C100_sort_ex :
  sortaxis st1 (Some 1%Z) false = Ok (rowl [NaN; num_of_Z 6; num_of_Z 4; num_of_Z 1] [1; 2; 3; 7]%Z) /\
  flipaxis (rowl [NaN; num_of_Z 6; num_of_Z 4; num_of_Z 1] [1; 2; 3; 7]%Z) (Some 1%Z) = Ok (rowl [num_of_Z 1; num_of_Z 4; num_of_Z 6; NaN] [7; 3; 2; 1]%Z) /\
  sortaxis st1 (Some 1%Z) true = Ok (rowl [num_of_Z 1; num_of_Z 4; num_of_Z 6; NaN] [7; 3; 2; 1]%Z) /\
  sortaxis (rowl [NaN; num_of_Z 6; num_of_Z 4; num_of_Z 1] [1; 2; 3; 7]%Z) (Some 1%Z) true = Ok (rowl [num_of_Z 1; num_of_Z 4; num_of_Z 6; NaN] [7; 3; 2; 1]%Z).
Proof. by_compute. Qed.
Example C100_clip_ex :
  larry_clip st1 (VInt 2) (VInt 5) = Ok (rowl [num_of_Z 4; NaN; num_of_Z 5; num_of_Z 2] [3; 1; 2; 7]%Z) /\
  larry_clip (rowl [num_of_Z 4; NaN; num_of_Z 5; num_of_Z 2] [3; 1; 2; 7]%Z) (VInt 3) (VInt 3) = Ok (rowl [num_of_Z 3; NaN; num_of_Z 3; num_of_Z 3] [3; 1; 2; 7]%Z) /\
  larry_clip st1 (VInt 3) (VInt 3) = Ok (rowl [num_of_Z 3; NaN; num_of_Z 3; num_of_Z 3] [3; 1; 2; 7]%Z).
Proof. by_compute. Qed.
Example C100_nan_replace_ex :
  nan_replace st1 (VInt 0) = Ok (rowl [num_of_Z 4; num_of_Z 0; num_of_Z 6; num_of_Z 1] [3; 1; 2; 7]%Z) /\
  nan_replace (rowl [num_of_Z 4; num_of_Z 0; num_of_Z 6; num_of_Z 1] [3; 1; 2; 7]%Z) (VInt 8) = Ok (rowl [num_of_Z 4; num_of_Z 0; num_of_Z 6; num_of_Z 1] [3; 1; 2; 7]%Z).
Proof. by_compute. Qed.
Definition st2 : larry := rowl [num_of_Z 5; PInf] [1; 9]%Z.
Definition st3 : larry := rowl [NaN; num_of_Z 8] [9; 3]%Z.
Example C100_merge_ex :
  valid st2 /\ valid st3 /\
  larry_merge st1 st2 true = Ok (rowl [num_of_Z 5; num_of_Z 6; num_of_Z 4; num_of_Z 1; NaN] [1; 2; 3; 7; 9]%Z) /\
  larry_merge (rowl [num_of_Z 5; num_of_Z 6; num_of_Z 4; num_of_Z 1; NaN] [1; 2; 3; 7; 9]%Z) st3 true = Ok (rowl [num_of_Z 5; num_of_Z 6; num_of_Z 8; num_of_Z 1; NaN] [1; 2; 3; 7; 9]%Z) /\
  larry_merge st2 st3 true = Ok (rowl [num_of_Z 5; num_of_Z 8; PInf] [1; 3; 9]%Z) /\
  larry_merge st1 (rowl [num_of_Z 5; num_of_Z 8; PInf] [1; 3; 9]%Z) true = Ok (rowl [num_of_Z 5; num_of_Z 6; num_of_Z 8; num_of_Z 1; NaN] [1; 2; 3; 7; 9]%Z) /\
  larry_merge st1 st1 true = Ok st1.
Proof. split; [unfold st2, rowl; solve_valid|]. split; [unfold st3, rowl; solve_valid|]. by_compute. Qed.
Example C100_align_ex :
  align st1 st2 (JOne JOuter) false = Ok (rowl [NaN; num_of_Z 6; num_of_Z 4; num_of_Z 1; NaN] [1; 2; 3; 7; 9]%Z, rowl [num_of_Z 5; NaN; NaN; NaN; PInf] [1; 2; 3; 7; 9]%Z) /\
  align (rowl [NaN; num_of_Z 6; num_of_Z 4; num_of_Z 1; NaN] [1; 2; 3; 7; 9]%Z) (rowl [num_of_Z 5; NaN; NaN; NaN; PInf] [1; 2; 3; 7; 9]%Z) (JOne JOuter) false =
    Ok (rowl [NaN; num_of_Z 6; num_of_Z 4; num_of_Z 1; NaN] [1; 2; 3; 7; 9]%Z, rowl [num_of_Z 5; NaN; NaN; NaN; PInf] [1; 2; 3; 7; 9]%Z).
Proof. by_compute. Qed.
Example C100_squeeze_ex :
  squeeze st1 = Larry (Nda DFloat (Arr [4] (VFloat <$> [num_of_Z 4; NaN; num_of_Z 6; num_of_Z 1]))) [LInt <$> [3; 1; 2; 7]%Z] /\ squeeze (squeeze st1) = squeeze st1 /\
  squeeze st1 <> st1.
Proof. split; [by vm_compute|]. split; [by vm_compute|]. by intros [=]. Qed.
Example C100_maplabel_ex :
  let f := fun l => match l with LInt z => LInt (z + 1) | _ => l end in let g := fun l => match l with LInt z => LInt (2 * z) | _ => l end in
  maplabel st1 f (Some 1%Z) = Ok (rowl [num_of_Z 4; NaN; num_of_Z 6; num_of_Z 1] [4; 2; 3; 8]%Z) /\
  maplabel (rowl [num_of_Z 4; NaN; num_of_Z 6; num_of_Z 1] [4; 2; 3; 8]%Z) g (Some 1%Z) = Ok (rowl [num_of_Z 4; NaN; num_of_Z 6; num_of_Z 1] [8; 4; 6; 16]%Z).
Proof. cbv zeta. by_compute. Qed.

Print Assumptions C100_morph.
Print Assumptions C100_morph_back.
Print Assumptions C100_take.
Print Assumptions C100_keep_label.
Print Assumptions C100_keep_label_again.
Print Assumptions C100_lag.
Print Assumptions C100_lag_negative.
Print Assumptions C100_lag_back.
Print Assumptions C100_sort_flip.
Print Assumptions C100_sort_again.
Print Assumptions C100_clip.
Print Assumptions C100_nan_replace.
Print Assumptions C100_merge_self.
Print Assumptions C100_merge.
Print Assumptions C100_align.
Print Assumptions C100_squeeze.
Print Assumptions C100_maplabel.
