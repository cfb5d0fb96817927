(** Proofs about the elements of larrys under arithmetic and assignment. *)
From Coq Require Import Lqa Qfield Qround.
From Verif Require Import NumFacts SpecNum PropsOps PropsLarry SpecFacts.
From Verif Require Export LimitFacts.
From Verif Require Import Larry Ops.
Open Scope nat_scope.

Lemma num_of_Z_reads z : num_of_Z z = Fin (Q2Qc (inject_Z z)).
Proof. unfold num_of_Z. f_equal. apply Qc_is_canon. symmetry. apply Qred_correct. Qed.
Lemma reads_to_num v a : reads v a <-> to_num v = Some a.
Proof.
  destruct v as [n|z|b|s| |o]; simpl; rewrite ?num_of_Z_reads; split; try done; try congruence.
  - intros ->. destruct b; f_equal; f_equal; by apply Qc_is_canon.
  - intros [= <-]. destruct b; f_equal; by apply Qc_is_canon.
Qed.
Lemma arith_limit op a b : op <> AFloorDiv -> limit_or_nan (exact_op op) (second_operand op) a b (arith_num op a b).
Proof. destruct op; intros; try done; [apply add_limit|apply sub_limit|apply mul_limit|apply div_limit|apply div_limit]. Qed.
Lemma arith_value_limit op v1 v2 v a b :
  arith_value op v1 v2 v -> reads v1 a -> reads v2 b -> exact_for op v1 v2 ->
  exists c, reads v c /\ limit_or_nan (exact_op op) (second_operand op) a b c.
Proof.
  intros H H1 H2 Hx. apply reads_to_num in H1, H2. setoid_rewrite reads_to_num.
  assert (Hop : op <> AFloorDiv) by (by intros ->).
  exists (arith_num op a b). split; [|by apply arith_limit].
  assert (op = AOldDiv \/ op <> AOldDiv) as [->|Ho] by (destruct op; try (by left); by right).
  - assert (exists n1 n2, to_num v1 = Some n1 /\ to_num v2 = Some n2 /\
      if decide (has_dtype DFloat v1 = false /\ has_dtype DFloat v2 = false)
      then has_dtype DInt v = true /\
           to_num v = Some (if decide (n2 = num_of_Z 0) then num_of_Z 0 else num_floor (num_div n1 n2))
      else v = VFloat (num_div n1 n2)) as (n1 & n2 & E1 & E2 & E) by exact H.
    case_decide as D. { destruct D. by destruct v1, v2. } subst v. simpl. congruence.
  - assert (exists n1 n2, to_num v1 = Some n1 /\ to_num v2 = Some n2 /\
      if decide (op = AFloorDiv /\ n2 = num_of_Z 0 /\ has_dtype DFloat v1 = false /\ has_dtype DFloat v2 = false)
      then v = VInt 0
      else to_num v = Some (arith_num op n1 n2)) as (n1 & n2 & E1 & E2 & E).
    { destruct op; try done; destruct v1, v2; try done. }
    case_decide as D; [by destruct D|]. congruence.
Qed.
Theorem arith_exact op y1 y2 z ls v1 v2 a b :
  valid y1 -> valid y2 -> larry_arith op y1 (OpLarry y2) = Ok z -> cell y1 ls = Some v1 -> cell y2 ls = Some v2 ->
  reads v1 a -> reads v2 b -> exact_for op v1 v2 ->
  exists v c, cell z ls = Some v /\ reads v c /\ limit_or_nan (exact_op op) (second_operand op) a b c.
Proof.
  intros V1 V2 H H1 H2 R1 R2 Hx. destruct (C20_arith _ _ _ _ V1 V2 H) as (_ & _ & _ & _ & _ & _ & Hc).
  destruct (Hc ls v1 v2 H1 H2) as (v & Hv & Hr). destruct (arith_value_limit _ _ _ _ _ _ Hr R1 R2 Hx) as (c & ? & ?). by exists v, c.
Qed.
Lemma num_of_Z_inj a b : num_of_Z a = num_of_Z b -> a = b.
Proof. by intros [= H]. Qed.
Lemma floor_div_int a b c : (b <> 0)%Z -> num_of_Z c = num_floor (num_div (num_of_Z a) (num_of_Z b)) -> c = (a / b)%Z.
Proof.
  intros Hb. unfold num_div, num_of_Z at 2 3. case_decide as E. { exfalso. apply Hb. apply num_of_Z_inj. unfold num_of_Z. f_equal. rewrite E. by apply Qc_is_canon. }
  cbn [num_floor]. intros H%num_of_Z_inj. rewrite H, Zdiv_Qdiv. apply Qfloor_comp. etrans; [apply Qred_correct|].
  unfold Qdiv. apply Qmult_comp; [done|]. apply Qred_correct.
Qed.
Lemma int_op_div op a b c : op = AFloorDiv \/ op = AOldDiv \/ op = ADiv -> (b = 0 /\ c = 0 \/ b <> 0 /\ c = a / b)%Z -> int_op op a b c.
Proof.
  intros Hop H. assert (b = 0%Z /\ c = 0%Z \/ (0 < b /\ c * b <= a < (c + 1) * b)%Z \/ (b < 0 /\ (c + 1) * b < a <= c * b)%Z).
  { destruct H as [?|[Hb ->]]; [by left|right]. pose proof (Z.div_mod a b Hb). destruct (Z.lt_total b 0) as [Hn|[?|Hp]]; [right|done|left].
    - pose proof (Z.mod_neg_bound a b Hn). split; [done|]. nia.
    - pose proof (Z.mod_pos_bound a b Hp). split; [done|]. nia. }
  by destruct Hop as [->|[->| ->]].
Qed.
Lemma Some_num_inj (a b : num) : Some a = Some b -> a = b.
Proof. congruence. Qed.
Lemma add_int a b : num_add (num_of_Z a) (num_of_Z b) = num_of_Z (a + b).
Proof. unfold num_of_Z, num_add. f_equal. apply Qc_is_canon. etrans; [apply Qred_correct|]. unfold Qeq. simpl. lia. Qed.
Lemma mul_int a b : num_mul (num_of_Z a) (num_of_Z b) = num_of_Z (a * b).
Proof. unfold num_of_Z, num_mul. f_equal. apply Qc_is_canon. etrans; [apply Qred_correct|]. unfold Qeq. simpl. lia. Qed.
Lemma neg_int a : num_neg (num_of_Z a) = num_of_Z (- a).
Proof. unfold num_of_Z, num_neg. f_equal. apply Qc_is_canon. etrans; [apply Qred_correct|]. done. Qed.
Theorem arith_int op y1 y2 z ls a b :
  valid y1 -> valid y2 -> ldtype y1 = DInt -> ldtype y2 = DInt -> op <> ADiv -> larry_arith op y1 (OpLarry y2) = Ok z ->
  cell y1 ls = Some (VInt a) -> cell y2 ls = Some (VInt b) -> exists c, cell z ls = Some (VInt c) /\ int_op op a b c.
Proof.
  intros V1 V2 D1 D2 Hop H H1 H2. destruct (C20_arith _ _ _ _ V1 V2 H) as (_ & Vz & _ & _ & _ & Hd & Hc).
  destruct (Hc _ _ _ H1 H2) as (v & Hv & Hr). rewrite D1, D2 in Hd. pose proof (valid_cell_typed _ _ _ Vz Hv) as T.
  assert (ldtype z = DInt) as Dz by (revert Hd; unfold arith_result; destruct op; try done; repeat case_decide; naive_solver).
  rewrite Dz in T. destruct v as [|c| | | |]; try done. exists c. split; [done|].
  destruct op; try done.
  - destruct Hr as (n1 & n2 & [= <-] & [= <-] & E). case_decide as D; [by destruct D|]. apply num_of_Z_inj. rewrite <-add_int. by apply Some_num_inj in E.
  - destruct Hr as (n1 & n2 & [= <-] & [= <-] & E). case_decide as D; [by destruct D|]. apply num_of_Z_inj. unfold Z.sub. rewrite <-add_int, <-neg_int. by apply Some_num_inj in E.
  - destruct Hr as (n1 & n2 & [= <-] & [= <-] & E). case_decide as D; [by destruct D|]. apply num_of_Z_inj. rewrite <-mul_int. by apply Some_num_inj in E.
  - apply int_op_div; [tauto|]. destruct Hr as (n1 & n2 & [= <-] & [= <-] & E). case_decide as D.
    + destruct D as (_ & D%num_of_Z_inj & _). left. by injection E as ->.
    + right. assert (b <> 0%Z) by (intros ->; by apply D). split; [done|]. apply Some_num_inj in E. by apply floor_div_int in E.
  - apply int_op_div; [tauto|]. destruct Hr as (n1 & n2 & [= <-] & [= <-] & E). case_decide as D; [|by destruct D].
    destruct E as [_ E]. case_decide as D'.
    + apply num_of_Z_inj in D' as ->. left. split; [done|]. apply Some_num_inj in E. by apply num_of_Z_inj in E.
    + right. assert (b <> 0%Z) by congruence. split; [done|]. apply Some_num_inj in E. by apply floor_div_int in E.
Qed.
Theorem scalar_exact op y w z ls v a b :
  valid y -> larry_arith op y (OpScalar w) = Ok z -> cell y ls = Some v -> reads v a -> reads w b -> exact_for op v w ->
  exists u c, cell z ls = Some u /\ reads u c /\ limit_or_nan (exact_op op) (second_operand op) a b c.
Proof.
  intros V H H1 R1 R2 Hx. destruct (C60_scalar _ _ _ _ V H) as (_ & _ & Hc). destruct (Hc ls v H1) as (u & Hu & Hr).
  destruct (arith_value_limit _ _ _ _ _ _ Hr R1 R2 Hx) as (c & ? & ?). by exists u, c.
Qed.
Lemma floor_rounded a : rounded_down a (num_floor a).
Proof.
  destruct a as [q| | |]; try done. exists (Qfloor (this q)). split; [cbn [num_floor reads]; apply num_of_Z_reads|]. split; [apply Qfloor_le|apply Qlt_floor].
Qed.
Theorem floor_exact y1 y2 z ls v1 v2 a b :
  valid y1 -> valid y2 -> ldtype y1 = DFloat \/ ldtype y2 = DFloat -> larry_arith AFloorDiv y1 (OpLarry y2) = Ok z ->
  cell y1 ls = Some v1 -> cell y2 ls = Some v2 -> reads v1 a -> reads v2 b ->
  exists d c, cell z ls = Some (VFloat c) /\ limit_or_nan Qdiv divisor a b d /\ rounded_down d c.
Proof.
  intros V1 V2 D H H1 H2 R1 R2. destruct (C20_arith _ _ _ _ V1 V2 H) as (_ & Vz & _ & _ & _ & Hd & Hc).
  destruct (Hc ls v1 v2 H1 H2) as (v & Hv & Hr). pose proof (valid_cell_typed _ _ _ Vz Hv) as T.
  assert (ldtype z = DFloat) as Dz by (rewrite Hd; case_decide; tauto). rewrite Dz in T. destruct v as [c| | | | |]; try done.
  apply reads_to_num in R1, R2. exists (num_div a b), c. split; [done|]. split; [apply div_limit|].
  destruct Hr as (n1 & n2 & E1 & E2 & E). case_decide as D'; [done|].
  assert (c = num_floor (num_div a b)) as -> by (cbn in E; congruence). apply floor_rounded.
Qed.
Lemma lt_limit a b : num_lt a b -> less_in_the_limit a b.
Proof.
  intros H. split; [by intros ->|]. split; [intros ->; by destruct a|]. intros p q Hp Hq.
  destruct a as [x| | |], b as [y| | |]; try done; cbn [approaches num_lt] in *.
  - unfold Qclt in H. assert (0 < (this y - this x) * (1 # 2))%Q as He by lra.
    destruct (eventually_both _ _ (Hp _ He) (Hq _ He)) as [N HN]. exists N. intros n Hn. destruct (HN n Hn). lra.
  - destruct (eventually_both _ _ (Hp 1 ltac:(lra))%Q (Hq (this x + 1)%Q)) as [N HN]. exists N. intros n Hn. destruct (HN n Hn). lra.
  - destruct (eventually_both _ _ (Hq 1 ltac:(lra))%Q (Hp (this y - 1)%Q)) as [N HN]. exists N. intros n Hn. destruct (HN n Hn). lra.
  - destruct (eventually_both _ _ (Hq 0%Q) (Hp 0%Q)) as [N HN]. exists N. intros n Hn. destruct (HN n Hn). lra.
Qed.
Lemma num_trichotomy a b : a <> NaN -> b <> NaN -> num_lt a b \/ a = b \/ num_lt b a.
Proof.
  destruct a as [x| | |], b as [y| | |]; simpl; intros Ha Hb; try done; try tauto.
  unfold Qclt. destruct (Qlt_le_dec (this x) (this y)) as [H|H]; [by left|]. destruct (Qlt_le_dec (this y) (this x)) as [H'|H']; [by right; right|].
  right; left. f_equal. apply Qc_is_canon. lra.
Qed.
Lemma limit_lt a b : less_in_the_limit a b -> num_lt a b.
Proof.
  intros (Ha & Hb & H). destruct (num_trichotomy a b Ha Hb) as [?|[->|H']]; [done| |].
  - destruct (has_sequence b Hb) as (q & Hq & _). destruct (H q q Hq Hq) as [N HN]. pose proof (HN N (le_n N)). lra.
  - destruct (lt_limit _ _ H') as (_ & _ & Hl). destruct (has_sequence b Hb) as (q & Hq & _). destruct (has_sequence a Ha) as (p & Hp & _).
    destruct (eventually_both _ _ (H p q Hp Hq) (Hl q p Hq Hp)) as [N HN]. destruct (HN N (le_n N)). lra.
Qed.
Theorem compare_exact op y1 y2 z ls v1 v2 a b :
  valid y1 -> valid y2 -> arithmetic (ldtype y1) -> arithmetic (ldtype y2) -> larry_compare op y1 (OpLarry y2) = Ok (OLar z) ->
  cell y1 ls = Some v1 -> cell y2 ls = Some v2 -> reads v1 a -> reads v2 b ->
  exists t, cell z ls = Some (VBool t) /\
  (t = true <-> compares op a b).
Proof.
  intros V1 V2 A1 A2 H H1 H2 R1 R2. destruct (C20_compare op y1 y2 (OLar z) V1 V2 (or_introl (conj A1 A2)) H) as (z' & [= <-] & _ & _ & _ & _ & Hc).
  destruct (Hc ls v1 v2 H1 H2) as (t & Ht & Hr). exists t. split; [done|]. rewrite Hr.
  assert (L : forall a b, num_lt a b <-> less_in_the_limit a b) by (intros; split; [apply lt_limit|apply limit_lt]).
  apply reads_to_num in R1, R2.
  assert (cmp_holds op v1 v2 <-> exists n1 n2, to_num v1 = Some n1 /\ to_num v2 = Some n2 /\
      match op with
      | CEq => num_same n1 n2 | CNe => ~ num_same n1 n2
      | CLt => num_lt n1 n2 | CGt => num_lt n2 n1
      | CLe => num_lt n1 n2 \/ num_same n1 n2 | CGe => num_lt n2 n1 \/ num_same n1 n2
      end) as -> by (destruct v1, v2; done).
  split.
  - intros (n1 & n2 & E1 & E2 & E). assert (n1 = a) as -> by congruence. assert (n2 = b) as -> by congruence. destruct op; cbn [compares]; rewrite <-?L; done.
  - intros E. exists a, b. split; [done|]. split; [done|]. destruct op; cbn [compares] in E; rewrite <-?L in E; done.
Qed.

(** * Assignment *)
Lemma trunc_chopped q : chopped q (Qc_trunc q).
Proof.
  unfold chopped, Qc_trunc. destruct q as [[n d] c]. unfold Qle, Qlt. cbn -[Z.mul]. clear c.
  pose proof (Z.quot_rem' n (Z.pos d)). split; intros Hs.
  - pose proof (Z.rem_bound_pos n (Z.pos d) ltac:(lia) ltac:(lia)). split; nia.
  - pose proof (Z.rem_bound_abs n (Z.pos d) ltac:(lia)); pose proof (Z.rem_nonpos n (Z.pos d) ltac:(lia) ltac:(lia)). split; nia.
Qed.
Lemma store_assigned dt v w : store dt v = Ok w -> assigned dt v w.
Proof.
  destruct dt.
  - intros H. assert (exists n, to_num v = Some n /\ w = VFloat n) as (n & Hn & ->).
    { destruct v; simpl in H; try done; injection H as <-; simpl; eauto. }
    exists n. by rewrite reads_to_num.
  - destruct v as [[q| | |]|k|b| | |]; simpl; intros [= <-]; try done. eexists. split; [apply trunc_chopped|done].
  - intros H. exists (val_truth v). split; [simpl in H; by injection H as <-|]. rewrite reads_to_num.
    assert (num_of_Z 0 = Fin 0%Qc) as E0 by (unfold num_of_Z; f_equal; by apply Qc_is_canon). rewrite <-E0.
    assert (forall k, num_of_Z k = num_of_Z 0 -> k = 0%Z) as E1 by (intros k; apply num_of_Z_inj).
    destruct v as [n|z|b|s| |o]; cbn [val_truth to_num].
    + rewrite negb_false_iff, bool_decide_eq_true, <-E0. naive_solver.
    + rewrite negb_false_iff, bool_decide_eq_true. naive_solver.
    + destruct b; split; try done; [|by right; right]. intros [?|[?|E]]; [done..|]. by apply Some_num_inj, E1 in E.
    + rewrite negb_false_iff, bool_decide_eq_true. naive_solver.
    + split; [by left|done].
    + naive_solver.
  - destruct v as [n|z|b|s| |o]; simpl; intros [= <-]. by exists s.
  - simpl. by intros [= <-].
Qed.
Theorem set_assigned y ls v z : valid y -> larry_set y ls v = Ok z -> exists w, cell z ls = Some w /\ assigned (ldtype y) v w.
Proof.
  intros V H. destruct (C09_set _ _ _ _ V H) as (_ & _ & _ & _ & w & Hw & Hc & _). exists w. split; [done|]. by apply store_assigned.
Qed.
Lemma assigned_store dt v w : assigned dt v w -> exists w', store dt v = Ok w'.
Proof.
  unfold assigned. destruct dt.
  - intros (a & Hr & _). destruct v; try done; by eexists.
  - destruct v as [[q| | |]|k|b| | |]; simpl; try done; intros; by eexists.
  - intros _. by eexists.
  - intros (s & -> & _). by eexists.
  - intros _. by eexists.
Qed.
Theorem set_assigned_iff y ls v : valid y -> in_grid (llabel y) ls ->
  (exists z, larry_set y ls v = Ok z) <-> exists w, assigned (ldtype y) v w.
Proof.
  intros V Hg. split.
  - intros [z Hz]. destruct (set_assigned _ _ _ _ V Hz) as (w & _ & Hw). by exists w.
  - intros [w (w' & Hw')%assigned_store]. by eapply C09_set_total.
Qed.
