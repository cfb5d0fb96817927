(** Proofs about arithmetic with infinities and NaN. *)
From Coq Require Import Lqa Qfield.
From Verif Require Import NumFacts SpecNum.
From Verif Require Export SpecLimit.
Open Scope nat_scope.

Lemma approaches_ext p p' a : (forall n, p n == p' n)%Q -> approaches p a -> approaches p' a.
Proof.
  intros E. destruct a as [q| | |]; simpl; try done.
  - intros H e He. destruct (H e He) as [N HN]. exists N. intros n Hn. rewrite <-(E n). by apply HN.
  - intros H b. destruct (H b) as [N HN]. exists N. intros n Hn. rewrite <-(E n). by apply HN.
  - intros H b. destruct (H b) as [N HN]. exists N. intros n Hn. rewrite <-(E n). by apply HN.
Qed.
Lemma eventually_both (P P' : nat -> Prop) :
  (exists N, forall n, N <= n -> P n) -> (exists N, forall n, N <= n -> P' n) -> exists N, forall n, N <= n -> P n /\ P' n.
Proof. intros [N H] [N' H']. exists (N + N'). intros n Hn. split; [apply H|apply H']; lia. Qed.
Lemma approaches_unique p a b : approaches p a -> approaches p b -> a = b.
Proof.
  intros Ha Hb. destruct a as [x| | |], b as [y| | |]; simpl in *; try done.
  - f_equal. apply Qc_is_canon.
    destruct (Qlt_le_dec x y) as [H|H].
    { assert (0 < (y - x) * (1 # 2))%Q as He by lra. destruct (eventually_both _ _ (Ha _ He) (Hb _ He)) as [N HN].
      destruct (HN N ltac:(lia)) as [[? ?] [? ?]]. lra. }
    destruct (Qlt_le_dec y x) as [H'|H'].
    { assert (0 < (x - y) * (1 # 2))%Q as He by lra. destruct (eventually_both _ _ (Ha _ He) (Hb _ He)) as [N HN].
      destruct (HN N ltac:(lia)) as [[? ?] [? ?]]. lra. }
    lra.
  - destruct (eventually_both _ _ (Ha 1 ltac:(lra))%Q (Hb (x + 1)%Q)) as [N HN]. destruct (HN N ltac:(lia)) as [[? ?] ?]. lra.
  - destruct (eventually_both _ _ (Ha 1 ltac:(lra))%Q (Hb (x - 1)%Q)) as [N HN]. destruct (HN N ltac:(lia)) as [[? ?] ?]. lra.
  - destruct (eventually_both _ _ (Hb 1 ltac:(lra))%Q (Ha (y + 1)%Q)) as [N HN]. destruct (HN N ltac:(lia)) as [[? ?] ?]. lra.
  - destruct (eventually_both _ _ (Ha 0%Q) (Hb 0%Q)) as [N HN]. destruct (HN N ltac:(lia)) as [? ?]. lra.
  - destruct (eventually_both _ _ (Hb 1 ltac:(lra))%Q (Ha (y - 1)%Q)) as [N HN]. destruct (HN N ltac:(lia)) as [[? ?] ?]. lra.
  - destruct (eventually_both _ _ (Ha 0%Q) (Hb 0%Q)) as [N HN]. destruct (HN N ltac:(lia)) as [? ?]. lra.
Qed.

(** * Some sequences *)
Definition up (n : nat) : Q := inject_Z (Z.of_nat n + 1).
Lemma up_pos n : (0 < up n)%Q.
Proof. unfold up. rewrite <-(Zlt_Qlt 0). lia. Qed.
Lemma up_le n m : n <= m -> (up n <= up m)%Q.
Proof. intros. unfold up. rewrite <-Zle_Qle. lia. Qed.
Lemma up_above b : exists N, (b < up N)%Q.
Proof.
  exists (Z.to_nat (Z.abs (Qround.Qfloor b))). unfold up. eapply Qlt_le_trans; [apply Qround.Qlt_floor|]. rewrite <-Zle_Qle. lia.
Qed.
Lemma up_approaches : approaches up PInf.
Proof. intros b. destruct (up_above b) as [N HN]. exists N. intros n Hn. pose proof (up_le _ _ Hn). lra. Qed.
Lemma const_approaches q q' : (q == this q')%Q -> approaches (fun _ => q) (Fin q').
Proof. intros E e He. exists 0. intros _ _. rewrite E. lra. Qed.
Lemma neg_approaches p a : approaches p a -> approaches (fun n => - p n)%Q (num_neg a).
Proof.
  destruct a as [q| | |]; simpl; try done.
  - intros H e He. destruct (H e He) as [N HN]. exists N. intros n Hn. pose proof (HN n Hn). 
    assert (this (- q)%Qc == - this q)%Q as -> by apply Qred_correct. lra.
  - intros H b. destruct (H (- b)%Q) as [N HN]. exists N. intros n Hn. pose proof (HN n Hn). lra.
  - intros H b. destruct (H (- b)%Q) as [N HN]. exists N. intros n Hn. pose proof (HN n Hn). lra.
Qed.
Lemma num_neg_neg a : num_neg (num_neg a) = a.
Proof. destruct a as [q| | |]; try done. simpl. f_equal. ring. Qed.
Lemma neg_approaches_inv p a : approaches (fun n => - p n)%Q (num_neg a) -> approaches p a.
Proof. intros H%neg_approaches. rewrite num_neg_neg in H. revert H. apply approaches_ext. intros n. lra. Qed.

(** * Sums *)
Lemma add_approaches p q a b : num_add a b <> NaN -> approaches p a -> approaches q b -> approaches (fun n => p n + q n)%Q (num_add a b).
Proof.
  destruct a as [x| | |], b as [y| | |]; simpl; intros Hc Ha Hb; try done.
  - intros e He. destruct (eventually_both _ _ (Ha (e * (1 # 2)) ltac:(lra))%Q (Hb (e * (1 # 2)) ltac:(lra))%Q) as [N HN].
    exists N. intros n Hn. destruct (HN n Hn) as [H1 H2]. assert (this (x + y)%Qc == this x + this y)%Q as -> by apply Qred_correct. lra.
  - intros b. destruct (eventually_both _ _ (Ha 1 ltac:(lra))%Q (Hb (b - x + 1)%Q)) as [N HN]. exists N. intros n Hn. pose proof (HN n Hn). lra.
  - intros b. destruct (eventually_both _ _ (Ha 1 ltac:(lra))%Q (Hb (b - x - 1)%Q)) as [N HN]. exists N. intros n Hn. pose proof (HN n Hn). lra.
  - intros b. destruct (eventually_both _ _ (Hb 1 ltac:(lra))%Q (Ha (b - y + 1)%Q)) as [N HN]. exists N. intros n Hn. pose proof (HN n Hn). lra.
  - intros b. destruct (eventually_both _ _ (Hb 0%Q) (Ha b)) as [N HN]. exists N. intros n Hn. pose proof (HN n Hn). lra.
  - intros b. destruct (eventually_both _ _ (Hb 1 ltac:(lra))%Q (Ha (b - y - 1)%Q)) as [N HN]. exists N. intros n Hn. pose proof (HN n Hn). lra.
  - intros b. destruct (eventually_both _ _ (Hb 0%Q) (Ha b)) as [N HN]. exists N. intros n Hn. pose proof (HN n Hn). lra.
Qed.
(** * Products *)
Lemma Qc_ltb_spec a b : Qc_ltb a b = true <-> (this a < this b)%Q.
Proof. unfold Qc_ltb, Qccompare. rewrite Qlt_alt. by destruct (_ ?= _)%Q. Qed.
Lemma inf_sign_cases q u v : (inf_sign q u v = u /\ 0 < this q)%Q \/ (inf_sign q u v = v /\ this q < 0)%Q \/ (inf_sign q u v = NaN /\ q = 0%Qc).
Proof.
  unfold inf_sign. destruct (Qc_ltb 0 q) eqn:E1; [left; split; [done|by apply Qc_ltb_spec in E1]|].
  destruct (Qc_ltb q 0) eqn:E2; [right; left; split; [done|by apply Qc_ltb_spec in E2]|]. right. right. split; [done|].
  apply Qc_is_canon. apply not_true_iff_false in E1, E2. rewrite Qc_ltb_spec in E1, E2. simpl in *. lra.
Qed.
Lemma mul_inf_pos p q x : (0 < this x)%Q -> approaches p (Fin x) -> approaches q PInf -> approaches (fun n => p n * q n)%Q PInf.
Proof.
  intros Hx Ha Hb b. set (h := (this x * (1 # 2))%Q). assert (0 < h)%Q as Hh by (unfold h; lra).
  set (c := (if Qlt_le_dec b 0 then 0 else b)%Q). assert (0 <= c /\ b <= c)%Q as [Hc Hbc] by (unfold c; destruct (Qlt_le_dec b 0); lra).
  destruct (eventually_both _ _ (Ha h Hh) (Hb (c * / h)%Q)) as [N HN]. exists N. intros n Hn. destruct (HN n Hn) as [H1 H2].
  assert (h < p n)%Q as H3 by (unfold h in *; lra).
  assert (0 <= / h)%Q by (by apply Qlt_le_weak, Qinv_lt_0_compat).
  assert (c * / h * h == c)%Q as E. { field. intros E. rewrite E in Hh. lra. }
  assert (0 <= c * / h)%Q by (apply Qmult_le_0_compat; lra). nra.
Qed.
Lemma mul_inf_inf p q : approaches p PInf -> approaches q PInf -> approaches (fun n => p n * q n)%Q PInf.
Proof.
  intros Ha Hb b. destruct (eventually_both _ _ (Ha (if Qlt_le_dec b 0 then 0 else b)%Q) (Hb 1%Q)) as [N HN]. exists N. intros n Hn. destruct (HN n Hn) as [H1 H2].
  destruct (Qlt_le_dec b 0); nra.
Qed.
Lemma mul_fin p q x y : approaches p (Fin x) -> approaches q (Fin y) -> approaches (fun n => p n * q n)%Q (Fin (x * y)%Qc).
Proof.
  intros Ha Hb e He.
  set (B := (if Qlt_le_dec (this x) 0 then - this x + 1 else this x + 1)%Q).
  set (C := (if Qlt_le_dec (this y) 0 then - this y + 1 else this y + 1)%Q).
  assert (1 <= B /\ - B + 1 <= this x <= B - 1)%Q as [HB Hx] by (unfold B; destruct (Qlt_le_dec (this x) 0); lra).
  assert (1 <= C /\ - C + 1 <= this y <= C - 1)%Q as [HC Hy] by (unfold C; destruct (Qlt_le_dec (this y) 0); lra).
  set (k := (/ ((1 # 1) + B + C))%Q). assert (0 < k)%Q as Hk by (apply Qinv_lt_0_compat; lra).
  assert (k * (1 + B + C) == 1)%Q as Ek by (unfold k; field; lra).
  set (d := (e * k)%Q). assert (0 < d)%Q as Hd by (unfold d; nra). assert (d * (1 + B + C) == e)%Q as Ed by (unfold d; rewrite <-Qmult_assoc, Ek; ring).
  set (d' := (if Qlt_le_dec d 1 then d else 1)%Q). assert (0 < d' /\ d' <= d /\ d' <= 1)%Q as (Hd1 & Hd2 & Hd3) by (unfold d'; destruct (Qlt_le_dec d 1); lra).
  destruct (eventually_both _ _ (Ha d' Hd1) (Hb d' Hd1)) as [N HN]. exists N. intros n Hn. destruct (HN n Hn) as [H1 H2].
  assert (this (x * y)%Qc == this x * this y)%Q as -> by apply Qred_correct.
  set (u := (p n - this x)%Q) in *. set (v := (q n - this y)%Q) in *.
  assert (p n * q n - this x * this y == u * v + this x * v + this y * u)%Q as -> by (unfold u, v; ring).
  assert (-d' < u * v < d')%Q by nra.
  assert (- (B * d) < this x * v < B * d)%Q by (clear -Hx H2 HB Hd1 Hd2; split; nra).
  assert (- (C * d) < this y * u < C * d)%Q by (clear -Hy H1 HC Hd1 Hd2; split; nra).
  lra.
Qed.
Lemma mul_comm_approaches p q c : approaches (fun n => q n * p n)%Q c -> approaches (fun n => p n * q n)%Q c.
Proof. apply approaches_ext. intros n. ring. Qed.
Lemma mul_neg_l p q c : approaches (fun n => - p n * q n)%Q (num_neg c) -> approaches (fun n => p n * q n)%Q c.
Proof. intros H. apply neg_approaches_inv. revert H. apply approaches_ext. intros n. ring. Qed.
Lemma mul_neg_r p q c : approaches (fun n => p n * - q n)%Q (num_neg c) -> approaches (fun n => p n * q n)%Q c.
Proof. intros H. apply neg_approaches_inv. revert H. apply approaches_ext. intros n. ring. Qed.
Lemma neg_pos x : (this x < 0)%Q -> (0 < this (- x)%Qc)%Q.
Proof. intros. assert (this (- x)%Qc == - this x)%Q as -> by apply Qred_correct. lra. Qed.
Lemma mul_fin_inf p q x : inf_sign x PInf NInf <> NaN -> approaches p (Fin x) -> approaches q PInf -> approaches (fun n => p n * q n)%Q (inf_sign x PInf NInf).
Proof.
  intros Hc Ha Hb. destruct (inf_sign_cases x PInf NInf) as [[-> H]|[[-> H]|[? _]]]; [| |done].
  - by eapply mul_inf_pos.
  - apply mul_neg_l. apply (mul_inf_pos _ _ (- x)%Qc); [by apply neg_pos| |done]. by apply (neg_approaches p (Fin x)).
Qed.
Lemma inf_sign_neg x : inf_sign x NInf PInf = num_neg (inf_sign x PInf NInf).
Proof. unfold inf_sign. by repeat case_match. Qed.
Lemma mul_approaches p q a b : num_mul a b <> NaN -> approaches p a -> approaches q b -> approaches (fun n => p n * q n)%Q (num_mul a b).
Proof.
  destruct a as [x| | |], b as [y| | |]; cbn [num_mul]; intros Hc Ha Hb; try done.
  - by apply mul_fin.
  - by apply mul_fin_inf.
  - apply mul_neg_r. rewrite inf_sign_neg, num_neg_neg in *. apply mul_fin_inf; [|done|by apply (neg_approaches q NInf)]. intros E. by rewrite E in Hc.
  - apply mul_comm_approaches. by apply mul_fin_inf.
  - by apply mul_inf_inf.
  - apply mul_neg_r. apply mul_inf_inf; [done|by apply (neg_approaches q NInf)].
  - apply mul_comm_approaches, mul_neg_r. rewrite inf_sign_neg, num_neg_neg in *. apply mul_fin_inf; [|done|by apply (neg_approaches p NInf)]. intros E. by rewrite E in Hc.
  - apply mul_neg_l. apply mul_inf_inf; [by apply (neg_approaches p NInf)|done].
  - apply mul_neg_l, mul_neg_r. apply mul_inf_inf; [by apply (neg_approaches p NInf)|by apply (neg_approaches q NInf)].
Qed.
(** * Quotients *)
Lemma inv_approaches q b : approaches q b -> divisor b q ->
  approaches (fun n => / q n)%Q (match b with Fin y => if decide (y = 0%Qc) then PInf else Fin (/ y)%Qc | NaN => NaN | _ => Fin 0%Qc end).
Proof.
  intros Hb Hd. destruct b as [y| | |]; [|done| |].
  - assert (forall n, if decide (y = 0%Qc) then 0 < q n else ~ q n == 0)%Q as Hd'.
    { intros n. specialize (Hd n). repeat case_decide; try done; congruence. }
    clear Hd. case_decide as Hy; cbn [approaches] in *.
    + subst y. intros b. set (c := (if Qlt_le_dec b 1 then 1 else b)%Q). assert (1 <= c /\ b <= c)%Q as [Hc Hbc] by (unfold c; destruct (Qlt_le_dec b 1); lra).
      destruct (Hb (/ c)%Q) as [N HN]; [apply Qinv_lt_0_compat; lra|]. exists N. intros n Hn. pose proof (HN n Hn) as H. pose proof (Hd' n) as Hp.
      change (this 0%Qc) with 0%Q in H. assert (q n < / c)%Q as H' by lra.
      assert (/ c * c == 1)%Q by (field; lra). assert (q n * / q n == 1)%Q by (field; lra).
      assert (0 < / q n)%Q by (by apply Qinv_lt_0_compat). nra.
    + assert (~ this y == 0)%Q as Hy' by (intros E; apply Hy; by apply Qc_is_canon).
      intros e He.
      set (h := (if Qlt_le_dec (this y) 0 then - this y * (1 # 2) else this y * (1 # 2))%Q).
      assert (0 < h)%Q as Hh by (unfold h; destruct (Qlt_le_dec (this y) 0); lra).
      set (g := (e * (h * h))%Q). assert (0 < h * h)%Q as Hhh by (by apply Qmult_lt_0_compat). assert (0 < g)%Q as Hg by (by apply Qmult_lt_0_compat).
      destruct (eventually_both _ _ (Hb h Hh) (Hb g Hg)) as [N HN]. exists N. intros n Hn. destruct (HN n Hn) as [H1 H2]. pose proof (Hd' n) as Hq.
      assert (this (/ y)%Qc == / this y)%Q as -> by apply Qred_correct.
      set (u := (/ q n - / this y)%Q).
      assert (u * (q n * this y) == this y - q n)%Q as Eu by (unfold u; field; tauto).
      assert (h * h < q n * this y)%Q as Hm. { unfold h in *. destruct (Qlt_le_dec (this y) 0); nra. }
      unfold g in *. split; nra.
  - intros e He. destruct (Hb (/ e)%Q) as [N HN]. exists N. intros n Hn. pose proof (HN n Hn) as H.
    assert (0 < / e)%Q by (by apply Qinv_lt_0_compat). assert (/ e * e == 1)%Q by (field; lra). assert (q n * / q n == 1)%Q by (field; lra).
    assert (0 < / q n)%Q by (apply Qinv_lt_0_compat; lra). change (this 0%Qc) with 0%Q. split; nra.
  - intros e He. destruct (Hb (- / e)%Q) as [N HN]. exists N. intros n Hn. pose proof (HN n Hn) as H.
    assert (0 < / e)%Q by (by apply Qinv_lt_0_compat). assert (/ e * e == 1)%Q by (field; lra).
    assert (- q n * / - q n == 1)%Q by (field; lra). assert (/ - q n == - / q n)%Q as E by (field; lra).
    assert (0 < / - q n)%Q by (apply Qinv_lt_0_compat; lra). rewrite E in *. change (this 0%Qc) with 0%Q. split; nra.
Qed.
Lemma Qc_inv_sign y : (y <> 0%Qc) -> (0 < this y -> 0 < this (/ y)%Qc)%Q /\ (this y < 0 -> this (/ y)%Qc < 0)%Q.
Proof.
  intros Hy. assert (this (/ y)%Qc == / this y)%Q as -> by apply Qred_correct. split.
  - apply Qinv_lt_0_compat.
  - intros H. assert (/ - this y == - / this y)%Q by (field; lra). assert (0 < / - this y)%Q by (apply Qinv_lt_0_compat; lra). lra.
Qed.
Lemma inf_sign_pos q u v : (0 < this q)%Q -> inf_sign q u v = u.
Proof. intros H. unfold inf_sign. destruct (Qc_ltb 0 q) eqn:E; [done|]. apply not_true_iff_false in E. by rewrite Qc_ltb_spec in E. Qed.
Lemma inf_sign_neg' q u v : (this q < 0)%Q -> inf_sign q u v = v.
Proof.
  intros H. unfold inf_sign. destruct (Qc_ltb 0 q) eqn:E. { apply Qc_ltb_spec in E. change (this 0%Qc) with 0%Q in E. lra. }
  destruct (Qc_ltb q 0) eqn:E'; [done|]. apply not_true_iff_false in E'. by rewrite Qc_ltb_spec in E'.
Qed.
Definition num_inv (b : num) : num :=
  match b with Fin y => if decide (y = 0%Qc) then PInf else Fin (/ y)%Qc | NaN => NaN | _ => Fin 0%Qc end.
Lemma inf_sign_zero u v : inf_sign 0%Qc u v = NaN.
Proof. done. Qed.
Lemma div_mul a b : num_div a b = num_mul a (num_inv b).
Proof.
  destruct a as [x| | |], b as [y| | |]; cbn [num_div num_mul num_inv]; try done; try (by case_decide).
  - f_equal. ring.
  - f_equal. ring.
  - case_decide as Hy; cbn [num_mul].
    + subst. done.
    + destruct (Qc_inv_sign y Hy) as [H1 H2]. destruct (Qc_ltb y 0) eqn:E.
      * apply Qc_ltb_spec in E. symmetry. apply inf_sign_neg'. by apply H2.
      * apply not_true_iff_false in E. rewrite Qc_ltb_spec in E. symmetry. apply inf_sign_pos. apply H1.
        assert (~ this y == 0)%Q by (intros E'; apply Hy; by apply Qc_is_canon). change (this 0%Qc) with 0%Q in E. lra.
  - case_decide as Hy; cbn [num_mul].
    + subst. done.
    + destruct (Qc_inv_sign y Hy) as [H1 H2]. destruct (Qc_ltb y 0) eqn:E.
      * apply Qc_ltb_spec in E. symmetry. apply inf_sign_neg'. by apply H2.
      * apply not_true_iff_false in E. rewrite Qc_ltb_spec in E. symmetry. apply inf_sign_pos. apply H1.
        assert (~ this y == 0)%Q by (intros E'; apply Hy; by apply Qc_is_canon). change (this 0%Qc) with 0%Q in E. lra.
Qed.
Lemma div_approaches p q a b : num_div a b <> NaN -> approaches p a -> approaches q b -> divisor b q -> approaches (fun n => p n / q n)%Q (num_div a b).
Proof. rewrite div_mul. intros Hc Ha Hb Hd. unfold Qdiv. apply mul_approaches; [done|done|]. by apply inv_approaches. Qed.

(** * The limit, or none *)
Lemma has_sequence b : b <> NaN -> exists q, approaches q b /\ divisor b q.
Proof.
  destruct b as [y| | |]; intros Hb; [|done| |].
  - destruct (decide (y = 0%Qc)) as [->|Hy].
    + exists (fun n => / up n)%Q. split; [|intros n; case_decide; [apply Qinv_lt_0_compat, up_pos|done]].
      pose proof (inv_approaches up PInf up_approaches) as H. apply H. intros n. case_decide; [done|]. pose proof (up_pos n). lra.
    + exists (fun _ => this y). split; [by apply const_approaches|]. intros n. case_decide; [congruence|]. intros E. apply Hy. by apply Qc_is_canon.
  - exists up. split; [apply up_approaches|]. intros n. case_decide; [done|]. pose proof (up_pos n). lra.
  - exists (fun n => - up n)%Q. split; [by apply (neg_approaches up PInf), up_approaches|]. intros n. case_decide; [done|]. pose proof (up_pos n). lra.
Qed.
Lemma limit_or_nan_intro (f : Q -> Q -> Q) (ok : num -> (nat -> Q) -> Prop) (a b c : num) :
  (forall q, divisor b q -> ok b q) ->
  (c <> NaN -> a <> NaN /\ b <> NaN /\ forall p q, approaches p a -> approaches q b -> ok b q -> approaches (fun n => f (p n) (q n)) c) ->
  (c = NaN -> a <> NaN -> b <> NaN -> exists p q p' q' d d', approaches p a /\ approaches p' a /\ approaches q b /\ approaches q' b /\
     ok b q /\ ok b q' /\ approaches (fun n => f (p n) (q n)) d /\ approaches (fun n => f (p' n) (q' n)) d' /\ d <> d') ->
  limit_or_nan f ok a b c.
Proof.
  intros Hok Hlim Hnan. destruct (decide (c = NaN)) as [->|Hc].
  - split; [|done]. intros d (Ha & Hb & H). exfalso. destruct (Hnan eq_refl Ha Hb) as (p & q & p' & q' & e & e' & H1 & H2 & H3 & H4 & H5 & H6 & H7 & H8 & H9).
    pose proof (approaches_unique _ _ _ (H p q H1 H3 H5) H7). pose proof (approaches_unique _ _ _ (H p' q' H2 H4 H6) H8). congruence.
  - destruct (Hlim Hc) as (Ha & Hb & H). split.
    + intros d (_ & _ & Hd). destruct (has_sequence a Ha) as (p & Hp & _). destruct (has_sequence b Hb) as (q & Hq & Hq').
      eapply approaches_unique; [by apply H; [| |apply Hok]|apply Hd; by try apply Hok].
    + intros Hno. destruct (Hno c). done.
Qed.
Lemma up_const k k' p : (forall n, p n == k)%Q -> (k == this k')%Q -> approaches p (Fin k').
Proof. intros E Hk. apply (approaches_ext (fun _ => k)); [intros n; by rewrite E|]. by apply const_approaches. Qed.
Lemma scaled_up k : (0 < k)%Q -> approaches (fun n => k * up n)%Q PInf.
Proof. intros Hk. apply (mul_inf_pos _ _ (Q2Qc k)); [change (0 < Qred k)%Q; by rewrite Qred_correct|apply const_approaches; symmetry; apply Qred_correct|apply up_approaches]. Qed.
Lemma scaled_down k : (k < 0)%Q -> approaches (fun n => k * up n)%Q NInf.
Proof. intros Hk. apply neg_approaches_inv. simpl num_neg. apply (approaches_ext (fun n => - k * up n)%Q); [intros; ring|]. apply scaled_up. lra. Qed.
Lemma inv_up : approaches (fun n => / up n)%Q (Fin 0%Qc).
Proof. destruct (has_sequence (Fin 0%Qc)) as (q & _ & _); [done|]. apply (inv_approaches up PInf up_approaches). intros n. case_decide; [done|]. pose proof (up_pos n). lra. Qed.
Lemma up_nz n : ~ (up n == 0)%Q.
Proof. pose proof (up_pos n). lra. Qed.

Theorem add_limit a b : limit_or_nan Qplus any_operand a b (num_add a b).
Proof.
  apply limit_or_nan_intro; [done| |].
  - intros Hc. split; [by intros ->|]. split; [intros ->; by destruct a|]. intros. by apply add_approaches.
  - intros Hc Ha Hb. destruct a as [x| | |], b as [y| | |]; try done.
    + exists (fun n => 1 * up n)%Q, (fun n => (-1 # 1) * up n)%Q, (fun n => 2 * up n)%Q, (fun n => (-1 # 1) * up n)%Q, (Fin 0%Qc), PInf.
      split_and!; try done; try (by apply scaled_up); try (by apply scaled_down).
      * apply (up_const 0); [intros; ring|done].
      * apply (approaches_ext (fun n => 1 * up n)%Q); [intros; ring|]. by apply scaled_up.
    + exists (fun n => (-1 # 1) * up n)%Q, (fun n => 1 * up n)%Q, (fun n => (-1 # 1) * up n)%Q, (fun n => 2 * up n)%Q, (Fin 0%Qc), PInf.
      split_and!; try done; try (by apply scaled_up); try (by apply scaled_down).
      * apply (up_const 0); [intros; ring|done].
      * apply (approaches_ext (fun n => 1 * up n)%Q); [intros; ring|]. by apply scaled_up.
Qed.
Theorem sub_limit a b : limit_or_nan Qminus any_operand a b (num_sub a b).
Proof.
  assert (H : forall d, limit_of Qminus any_operand a b d <-> limit_of Qplus any_operand a (num_neg b) d).
  { intros d. split; intros (Ha & Hb & H).
    - split; [done|]. split; [by destruct b|]. intros p q Hp Hq _. apply (approaches_ext (fun n => p n - (- q n))%Q); [intros; ring|]. apply H; [done| |done].
      apply neg_approaches_inv. apply (approaches_ext q); [intros; ring|done].
    - split; [done|]. split; [by destruct b|]. intros p q Hp Hq _. apply (H p (fun n => - q n)%Q); [done| |done]. by apply neg_approaches. }
  destruct (add_limit a (num_neg b)) as [H1 H2]. split.
  - intros d Hd. by apply H1, H.
  - intros Hno. apply H2. intros d Hd. by eapply Hno, H.
Qed.
Theorem mul_limit a b : limit_or_nan Qmult any_operand a b (num_mul a b).
Proof.
  apply limit_or_nan_intro; [done| |].
  - intros Hc. split; [by intros ->|]. split; [intros ->; by destruct a|]. intros. by apply mul_approaches.
  - intros Hc Ha Hb. destruct a as [x| | |], b as [y| | |]; cbn [num_mul] in Hc; try done.
    + destruct (inf_sign_cases x PInf NInf) as [[E _]|[[E _]|[_ ->]]]; [congruence..|].
      exists (fun _ => 0)%Q, (fun n => 1 * up n)%Q, (fun n => / up n)%Q, (fun n => 1 * up n)%Q, (Fin 0%Qc), (Fin 1%Qc).
      split_and!; try done; try (by apply scaled_up); [by apply const_approaches|apply inv_up| |].
      * apply (up_const 0); [intros; ring|done].
      * apply (up_const 1); [intros n; field; apply up_nz|done].
    + destruct (inf_sign_cases x NInf PInf) as [[E _]|[[E _]|[_ ->]]]; [congruence..|].
      exists (fun _ => 0)%Q, (fun n => (-1 # 1) * up n)%Q, (fun n => / up n)%Q, (fun n => (-1 # 1) * up n)%Q, (Fin 0%Qc), (Fin (-1)%Qc).
      split_and!; try done; try (by apply scaled_down); [by apply const_approaches|apply inv_up| |].
      * apply (up_const 0); [intros; ring|done].
      * apply (up_const (-1 # 1)); [intros n; field; apply up_nz|done].
    + destruct (inf_sign_cases y PInf NInf) as [[E _]|[[E _]|[_ ->]]]; [congruence..|].
      exists (fun n => 1 * up n)%Q, (fun _ => 0)%Q, (fun n => 1 * up n)%Q, (fun n => / up n)%Q, (Fin 0%Qc), (Fin 1%Qc).
      split_and!; try done; try (by apply scaled_up); [by apply const_approaches|apply inv_up| |].
      * apply (up_const 0); [intros; ring|done].
      * apply (up_const 1); [intros n; field; apply up_nz|done].
    + destruct (inf_sign_cases y NInf PInf) as [[E _]|[[E _]|[_ ->]]]; [congruence..|].
      exists (fun n => (-1 # 1) * up n)%Q, (fun _ => 0)%Q, (fun n => (-1 # 1) * up n)%Q, (fun n => / up n)%Q, (Fin 0%Qc), (Fin (-1)%Qc).
      split_and!; try done; try (by apply scaled_down); [by apply const_approaches|apply inv_up| |].
      * apply (up_const 0); [intros; ring|done].
      * apply (up_const (-1 # 1)); [intros n; field; apply up_nz|done].
Qed.
Lemma divisor_scaled b k : (~ k == 0)%Q -> b = PInf \/ b = NInf -> divisor b (fun n => k * up n)%Q.
Proof. intros Hk Hb n. case_decide as E; [destruct Hb; congruence|]. intros E'%Qmult_integral. pose proof (up_nz n). tauto. Qed.
Theorem div_limit a b : limit_or_nan Qdiv divisor a b (num_div a b).
Proof.
  apply limit_or_nan_intro; [done| |].
  - intros Hc. split; [by intros ->|]. split; [intros ->; by destruct a|]. intros. by apply div_approaches.
  - intros Hc Ha Hb.
    assert (Hinf : forall k l, (~ l == 0)%Q -> (~ k == 0)%Q -> (a = PInf /\ 0 < k \/ a = NInf /\ k < 0)%Q -> (b = PInf /\ 0 < l \/ b = NInf /\ l < 0)%Q ->
      exists p q p' q' d d', approaches p a /\ approaches p' a /\ approaches q b /\ approaches q' b /\
       divisor b q /\ divisor b q' /\ approaches (fun n => p n / q n)%Q d /\ approaches (fun n => p' n / q' n)%Q d' /\ d <> d').
    { intros k l Hl Hk H1 H2.
      exists (fun n => k * up n)%Q, (fun n => l * up n)%Q, (fun n => (2 * k) * up n)%Q, (fun n => l * up n)%Q, (Fin (Q2Qc (k / l))), (Fin (Q2Qc (2 * k / l))).
      assert (Hlu : approaches (fun n => l * up n)%Q b) by (destruct H2 as [[-> ?]|[-> ?]]; [by apply scaled_up|by apply scaled_down]).
      assert (Hdl : divisor b (fun n => l * up n)%Q) by (apply divisor_scaled; [done|]; destruct H2 as [[-> ?]|[-> ?]]; tauto).
      split_and!; try done.
      - destruct H1 as [[-> ?]|[-> ?]]; [by apply scaled_up|by apply scaled_down].
      - destruct H1 as [[-> ?]|[-> ?]]; [apply scaled_up; lra|apply scaled_down; lra].
      - apply (up_const (k / l)); [intros n; field; repeat split; try done; try apply up_nz|symmetry; apply Qred_correct].
      - apply (up_const (2 * k / l)); [intros n; field; repeat split; try done; try apply up_nz|symmetry; apply Qred_correct].
      - intros [= E]. apply Hk. apply (f_equal (fun q => q)) in E. assert (Qred (k / l) == Qred (2 * k / l))%Q as E' by (by rewrite E). rewrite !Qred_correct in E'.
        assert (k / l * l == k)%Q as E1 by (field; done). assert (2 * k / l * l == 2 * k)%Q as E2 by (field; done). rewrite E', E2 in E1. lra. }
    destruct a as [x| | |], b as [y| | |]; cbn [num_div] in Hc; try done.
    + case_decide as Hy; [|done]. subst. destruct (inf_sign_cases x PInf NInf) as [[E _]|[[E _]|[_ ->]]]; [congruence..|].
      exists (fun _ => 0)%Q, (fun n => / up n)%Q, (fun n => / up n)%Q, (fun n => / up n)%Q, (Fin 0%Qc), (Fin 1%Qc).
      assert (divisor (Fin 0%Qc) (fun n => / up n)%Q). { intros n. case_decide; [apply Qinv_lt_0_compat, up_pos|done]. }
      split_and!; try done; [by apply const_approaches|apply inv_up|apply inv_up|apply inv_up| |].
      * apply (up_const 0); [intros n; field; apply up_nz|done].
      * apply (up_const 1); [intros n; field; apply up_nz|done].
    + by destruct (Qc_ltb y 0).
    + apply (Hinf 1%Q 1%Q); try done; by left.
    + apply (Hinf 1%Q (-1 # 1)%Q); try done; [by left|by right].
    + by destruct (Qc_ltb y 0).
    + apply (Hinf (-1 # 1)%Q 1%Q); try done; [by right|by left].
    + apply (Hinf (-1 # 1)%Q (-1 # 1)%Q); try done; by right.
Qed.
