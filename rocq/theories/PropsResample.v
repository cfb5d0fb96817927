(** Properties C45, C46, C58 and C59: shuffling and resampling
    (la/util/resample.py and la/deflarry.py). *)
From Verif Require Import ResampleFacts.
From Verif Require Import PropsLarry PropsAlign PropsOps PropsNumeric PropsIndex.
From Coq Require Import Sorted.

(** C45: cross validation, for every shuffle. *)
Theorem C45_cross_validation : forall shuffle n kfold,
  (forall l, shuffle l ≡ₚ l) -> (2 <= kfold)%Z -> (kfold <= n)%Z ->
  exists folds, cross_validation shuffle n kfold = Ok folds /\ is_folds (Z.to_nat n) (Z.to_nat kfold) folds.
Proof. exact cross_validation_spec. Qed.
Theorem C45_cross_validation_error : forall shuffle n kfold,
  (n < 2 \/ kfold < 2 \/ kfold > n)%Z -> cross_validation shuffle n kfold = Err ValueError.
Proof. exact cross_validation_bad. Qed.
Example C45_example :
  cross_validation reverse 7 3 = Ok [([4; 3; 2; 1; 0], [6; 5]); ([6; 5; 2; 1; 0], [4; 3]); ([6; 5; 4; 3], [2; 1; 0])] /\
  cross_validation reverse 3 4 = Err ValueError.
Proof. by_compute. Qed.

(** C46: bootstrap, for every sequence of draws.  The training sets are the
    draws that leave something out, in order. *)
Theorem C46_bootstrap : forall draw n nboot fuel ps,
  good_randint (Z.to_nat n) draw -> bootstrap draw n nboot fuel = Ok (Some ps) ->
  (2 <= n)%Z /\ (1 <= nboot)%Z /\ Z.of_nat (length ps) = nboot /\ Forall (is_sample (Z.to_nat n)) ps /\
  exists m ks, StronglySorted lt ks /\ ps.*1 = draw <$> ks /\ forall k, k ∈ ks <-> k < m /\ leaves_out (Z.to_nat n) (draw k).
Proof. exact bootstrap_spec. Qed.
(** It ends if such draws keep coming. *)
Theorem C46_bootstrap_ends : forall draw n nboot,
  (2 <= n)%Z -> (1 <= nboot)%Z -> (forall k, exists k', k <= k' /\ leaves_out (Z.to_nat n) (draw k')) ->
  exists fuel ps, bootstrap draw n nboot fuel = Ok (Some ps).
Proof. exact bootstrap_ok. Qed.
Theorem C46_bootstrap_error : forall draw n nboot fuel, (n < 2 \/ nboot < 1)%Z -> bootstrap draw n nboot fuel = Err ValueError.
Proof. exact bootstrap_bad. Qed.
Example C46_example :
  bootstrap (fun k => match k with 0 => [2; 0; 2] | 1 => [1; 2; 0] | _ => [1; 1; 1] end) 3 2 5 =
    Ok (Some [([2; 0; 2], [1]); ([1; 1; 1], [0; 2])]) /\
  bootstrap (fun k => [1; 0]) 2 1 5 = Ok None.
Proof. by_compute. Qed.

(** C58: shuffle moves whole slices and keeps the labels. *)
Theorem C58_shuffle : forall d y axis z,
  valid y -> larry_shuffle d y axis = Ok z -> exists pss, data_permuted y z pss /\ only_selected y axis pss.
Proof. exact shuffle_spec. Qed.
Theorem C58_shuffle_succeeds : forall d y axis,
  valid y -> (forall ax, good_draws (d ax)) -> match axis with Some a => exists ax, axis_is y a ax | None => True end ->
  exists z, larry_shuffle d y axis = Ok z.
Proof. exact shuffle_ok. Qed.
Theorem C58_shuffle_bad_axis : forall d y a, valid y -> ~ (exists ax, axis_is y a ax) -> larry_shuffle d y (Some a) = Err ValueError.
Proof. exact shuffle_bad_axis. Qed.
(** Every permutation is possible. *)
Theorem C58_shuffle_reaches : forall y a ax l ps,
  valid y -> axis_is y a ax -> llabel y !! ax = Some l -> ps ≡ₚ seq 0 (length l) ->
  exists d z, (forall ax, good_draws (d ax)) /\ larry_shuffle d y (Some a) = Ok z /\
    data_permuted y z (<[ax := ps]> ((fun l => seq 0 (length l)) <$> llabel y)).
Proof. exact shuffle_reach. Qed.
(** shufflelabel permutes labels and keeps the data. *)
Theorem C58_shufflelabel : forall d y axis z,
  valid y -> larry_shufflelabel d y axis = Ok z -> lx z = lx y /\ valid z /\ labels_permuted y z axis.
Proof. exact shufflelabel_spec. Qed.
Theorem C58_shufflelabel_succeeds : forall d y axis,
  valid y -> (forall ax, good_draws (d ax)) ->
  (exists z, larry_shufflelabel d y axis = Ok z) <->
  match axis with Some a => exists ax, axis_is y a ax | None => True end /\
  forall ax l, axis_selected y axis ax -> llabel y !! ax = Some l -> exchangeable l.
Proof. exact shufflelabel_iff. Qed.
(** Behind a string or tuple label no label without slices can be shuffled,
    whatever the random numbers. *)
Theorem C58_shufflelabel_mixed : forall d y axis ax l,
  valid y -> (forall ax, good_draws (d ax)) -> axis_is y axis ax -> llabel y !! ax = Some l -> ~ exchangeable l ->
  larry_shufflelabel d y (Some axis) = Err TypeError.
Proof. exact shufflelabel_mixed. Qed.
Theorem C58_shufflelabel_mixed_refuted :
  exists y d, valid y /\ (forall ax, good_draws (d ax)) /\ larry_shufflelabel d y (Some 0%Z) = Err TypeError.
Proof. exact shufflelabel_mixed_refuted. Qed.
Example C58_example :
  larry_shuffle (fun _ i => 0) ex2 (Some (-1)%Z) = Ok (Larry (Nda DInt (Arr [2; 3] (VInt <$> [2; 3; 1; 5; 6; 4]%Z))) (llabel ex2)) /\
  larry_shuffle (fun _ i => i - 1) ex2 None = Ok (Larry (Nda DInt (Arr [2; 3] (VInt <$> [6; 4; 5; 3; 1; 2]%Z))) (llabel ex2)) /\
  larry_shufflelabel (fun _ i => 0) ex2 (Some 1%Z) = Ok (Larry (lx ex2) [[LStr "x"; LStr "y"]; [LInt 9; LInt 5; LInt 7]]).
Proof. by_compute. Qed.

(** C59: split. *)
Theorem C59_split : forall y axis train test a b,
  valid y -> split_data y train test axis = Ok (a, b) ->
  exists ax l la lb, axis_is y axis ax /\ llabel y !! ax = Some l /\ mapM (l !!.) train = Some la /\ mapM (l !!.) test = Some lb /\
  valid a /\ valid b /\ ldtype a = ldtype y /\ ldtype b = ldtype y /\
  llabel a = <[ax := la]> (llabel y) /\ llabel b = <[ax := lb]> (llabel y) /\
  (forall ls x, ls !! ax = Some x -> x ∈ la -> cell a ls = cell y ls) /\
  (forall ls x, ls !! ax = Some x -> x ∈ lb -> cell b ls = cell y ls).
Proof. exact split_spec. Qed.
(** With the folds of cross_validation. *)
Theorem C59_split_folds : forall y axis ax l folds k train test kfold,
  valid y -> axis_is y axis ax -> llabel y !! ax = Some l -> is_folds (length l) kfold folds -> folds !! k = Some (train, test) ->
  exists a b la lb, split_data y train test axis = Ok (a, b) /\ llabel a !! ax = Some la /\ llabel b !! ax = Some lb /\
    la ++ lb ≡ₚ l /\ (forall x, x ∈ l -> (x ∈ la /\ x ∉ lb) \/ (x ∈ lb /\ x ∉ la)) /\
    (forall ls v, cell y ls = Some v -> cell a ls = Some v \/ cell b ls = Some v).
Proof. exact split_folds. Qed.
Example C59_example :
  (folds ← cross_validation reverse 3 2; mapR (fun p => split_data ex2 p.1 p.2 1) folds) =
  Ok [(Larry (Nda DInt (Arr [2; 2] (VInt <$> [2; 1; 5; 4]%Z))) [[LStr "x"; LStr "y"]; [LInt 9; LInt 7]],
       Larry (Nda DInt (Arr [2; 1] (VInt <$> [3; 6]%Z))) [[LStr "x"; LStr "y"]; [LInt 5]]);
      (Larry (Nda DInt (Arr [2; 1] (VInt <$> [3; 6]%Z))) [[LStr "x"; LStr "y"]; [LInt 5]],
       Larry (Nda DInt (Arr [2; 2] (VInt <$> [2; 1; 5; 4]%Z))) [[LStr "x"; LStr "y"]; [LInt 9; LInt 7]])] /\
  split_data ex2 [0] [3] 1 = Err IndexError.
Proof. by_compute. Qed.

Print Assumptions C45_cross_validation.
Print Assumptions C45_cross_validation_error.
Print Assumptions C46_bootstrap.
Print Assumptions C46_bootstrap_ends.
Print Assumptions C46_bootstrap_error.
Print Assumptions C58_shuffle.
Print Assumptions C58_shuffle_succeeds.
Print Assumptions C58_shuffle_bad_axis.
Print Assumptions C58_shuffle_reaches.
Print Assumptions C58_shufflelabel.
Print Assumptions C58_shufflelabel_succeeds.
Print Assumptions C58_shufflelabel_mixed.
Print Assumptions C58_shufflelabel_mixed_refuted.
Print Assumptions C59_split.
Print Assumptions C59_split_folds.
