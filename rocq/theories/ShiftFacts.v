(** Statistics of numbers that are all changed in the same way. *)
From Verif Require Export SpecShift. From Verif Require Export ReorderFacts.
From Verif Require Import SpecFacts NumFacts ReduceFacts PickFacts.

(** * Numbers *)
Lemma zero_Qc : Qc_of_Z 0 = 0%Qc.
Proof. by apply Qc_is_canon. Qed.
Lemma Qc_ltb_lt p q : Qc_ltb p q = true <-> (p < q)%Qc.
Proof. apply (num_ltb_lt (Fin p) (Fin q)). Qed.
Ltac qc_signs := unfold inf_sign; repeat match goal with
  | |- context [Qc_ltb ?a ?b] => let E := fresh "E" in destruct (Qc_ltb a b) eqn:E; [apply Qc_ltb_lt in E|apply not_true_iff_false in E; rewrite Qc_ltb_lt in E] end.
Lemma shifted_nan c n : shifted c n = NaN <-> n = NaN.
Proof. by destruct n. Qed.
Lemma shifted_increasing c : increasing (shifted c).
Proof.
  split; [intros n; apply shifted_nan|]. intros a b. destruct a as [p| | |], b as [q| | |]; simpl; try done. intros H. by apply Qcplus_lt_mono_r.
Qed.
Lemma shifted_finite c : finite_kept (shifted c).
Proof. by intros []. Qed.
Lemma scaled_nan c n : c <> 0%Qc -> scaled c n = NaN <-> n = NaN.
Proof.
  intros Hc. destruct n; simpl; try done; split; try done; unfold inf_sign; qc_signs; try done; destruct Hc; apply Qcle_antisym; by apply Qcnot_lt_le.
Qed.
Lemma scaled_increasing c : (0 < c)%Qc -> increasing (scaled c).
Proof.
  intros Hc. assert (Hne : c <> 0%Qc) by (intros ->; by apply (Qclt_not_eq _ _ Hc)). split; [intros n; by apply scaled_nan|].
  assert (E : Qc_ltb 0 c = true) by (by apply Qc_ltb_lt).
  intros a b. destruct a as [p| | |], b as [q| | |]; simpl; unfold inf_sign; rewrite ?E; try done. intros H. by apply Qcmult_lt_compat_r.
Qed.
Lemma scaled_finite c : c <> 0%Qc -> finite_kept (scaled c).
Proof. intros Hc [p| | |]; simpl; try done; unfold inf_sign; by repeat case_match. Qed.
Lemma increasing_ltb h a b : increasing h -> num_ltb (h a) (h b) = num_ltb a b.
Proof.
  intros [Hn Hl]. destruct (num_ltb a b) eqn:E.
  - apply num_ltb_lt. apply Hl. by apply num_ltb_lt.
  - apply not_true_iff_false. apply not_true_iff_false in E. intros Hab. apply E. apply num_ltb_lt in Hab. apply num_ltb_lt.
    destruct (decide (a = NaN)) as [->|Ha]; [assert (h NaN = NaN) as Hh by (by apply Hn); rewrite Hh in Hab; done|].
    destruct (decide (b = NaN)) as [->|Hb]; [assert (h NaN = NaN) as Hh by (by apply Hn); rewrite Hh in Hab; by destruct (h a)|].
    destruct (num_trichotomy a b Ha Hb) as [H|[->|H]]; [done| |].
    + exfalso. revert Hab. destruct (h b); simpl; try done. intros Hq; by apply (Qclt_not_eq _ _ Hq).
    + exfalso. apply Hl in H. apply num_lt_not_le in H. apply H. by left.
Qed.
Lemma increasing_inj h a b : increasing h -> a <> NaN -> b <> NaN -> h a = h b -> a = b.
Proof.
  intros Hh Ha Hb E. destruct (num_trichotomy a b Ha Hb) as [H|[->|H]]; [|done|]; apply num_ltb_lt in H; rewrite <-(increasing_ltb h) in H by done; rewrite E in H;
    apply num_ltb_lt in H; exfalso; revert H; destruct (h b); simpl; try done; intros Hq; by apply (Qclt_not_eq _ _ Hq).
Qed.
Lemma num_eqb_same a b : num_eqb a b = true <-> a = b /\ a <> NaN.
Proof.
  unfold num_eqb. destruct a as [p| | |], b as [q| | |]; rewrite ?bool_decide_eq_true; split; try done; by intros [? ?].
Qed.
Lemma increasing_eqb h a b : increasing h -> num_eqb (h a) (h b) = num_eqb a b.
Proof.
  intros Hh. apply eq_true_iff_eq. rewrite !num_eqb_same. pose proof Hh as [Hn _]. split.
  - intros [E Ha]. assert (a <> NaN) as Ha' by (by rewrite <-Hn). assert (b <> NaN) as Hb' by (rewrite <-Hn, <-E; done). split; [|done]. by eapply increasing_inj.
  - intros [-> Ha]. split; [done|]. by rewrite Hn.
Qed.
Lemma increasing_leb h a b : increasing h -> num_leb (h a) (h b) = num_leb a b.
Proof. intros Hh. unfold num_leb. by rewrite increasing_ltb, increasing_eqb. Qed.
Lemma increasing_is_nan h n : increasing h -> is_nan (h n) = is_nan n.
Proof.
  intros [Hn _]. apply eq_true_iff_eq. assert (H : forall m, is_nan m = true <-> m = NaN) by (by intros []). by rewrite !H, Hn.
Qed.
Lemma sort_changed h l : increasing h -> num_sort (h <$> l) = h <$> num_sort l.
Proof.
  intros Hh. assert (Hi : forall x l, num_insert (h x) (h <$> l) = h <$> num_insert x l).
  { intros x k. induction k as [|y k IH]; [done|]. cbn [fmap list_fmap num_insert]. rewrite increasing_leb by done. destruct (num_leb x y); [done|]. cbn [fmap list_fmap]. by rewrite <-IH. }
  induction l as [|x l IH]; [done|]. cbn [fmap list_fmap num_sort foldr]. fold (num_sort (h <$> l)) (num_sort l). by rewrite IH, Hi.
Qed.
Lemma fold1_changed {A} (f : A -> A -> A) (h : A -> A) d l : (forall a b, f (h a) (h b) = h (f a b)) -> h d = d -> fold1 f d (h <$> l) = h (fold1 f d l).
Proof.
  intros Hf Hd. destruct l as [|x l]; [done|]. simpl. revert x. induction l as [|y l IH]; intros x; [done|]. simpl. by rewrite Hf, IH.
Qed.
Lemma max_changed h a b : increasing h -> num_max (h a) (h b) = h (num_max a b).
Proof. intros Hh. unfold num_max. rewrite increasing_ltb by done. by destruct (num_ltb a b). Qed.
Lemma min_changed h a b : increasing h -> num_min (h a) (h b) = h (num_min a b).
Proof. intros Hh. unfold num_min. rewrite increasing_ltb by done. by destruct (num_ltb b a). Qed.

Lemma shifted_mid c a b : num_div (num_add (shifted c a) (shifted c b)) (num_of_Z 2) = shifted c (num_div (num_add a b) (num_of_Z 2)).
Proof.
  assert (H2 : Qc_of_Z 2 = (1 + 1)%Qc) by (by apply Qc_is_canon).
  destruct a as [p| | |], b as [q| | |]; try done. unfold num_of_Z, shifted, num_add, num_div. rewrite H2, !decide_False by done. f_equal. field. done.
Qed.
Lemma scaled_add c a b : c <> 0%Qc -> num_add (scaled c a) (scaled c b) = scaled c (num_add a b).
Proof.
  intros Hc. destruct a as [p| | |], b as [q| | |]; simpl; try done; unfold inf_sign; repeat case_match; try done; try (f_equal; ring).
Qed.
Lemma scaled_div c a q : (0 < q)%Qc -> num_div (scaled c a) (Fin q) = scaled c (num_div a (Fin q)).
Proof.
  intros Hq. assert (Hne : q <> 0%Qc) by (intros ->; by apply (Qclt_not_eq _ _ Hq)).
  assert (E : Qc_ltb q 0 = false) by (apply not_true_iff_false; rewrite Qc_ltb_lt; intros H; by apply (Qclt_not_le _ _ H), Qclt_le_weak).
  destruct a as [p| | |]; simpl; rewrite ?decide_False by done; try done.
  - simpl. f_equal. field. done.
  - rewrite E. simpl. unfold inf_sign. destruct (Qc_ltb 0 c); [simpl; by rewrite E|]. destruct (Qc_ltb c 0); simpl; [by rewrite E|done].
  - rewrite E. simpl. unfold inf_sign. destruct (Qc_ltb 0 c); [simpl; by rewrite E|]. destruct (Qc_ltb c 0); simpl; [by rewrite E|done].
Qed.
Lemma num_of_nat_pos n : 0 < n -> exists q, num_of_nat n = Fin q /\ (0 < q)%Qc.
Proof.
  intros Hn. exists (Qc_of_Z (Z.of_nat n)). split; [done|]. rewrite <-zero_Qc. apply (num_of_Z_lt 0 (Z.of_nat n)). lia.
Qed.
Lemma Qc_of_Z_plus a b : Qc_of_Z (a + b) = (Qc_of_Z a + Qc_of_Z b)%Qc.
Proof. assert (Hi : forall p q, Fin p = Fin q -> p = q) by (by intros p q [= ->]). symmetry. apply Hi. exact (num_add_Z a b). Qed.
Lemma sum_shifted c l s : fold_left num_add (shifted c <$> l) s = num_add (fold_left num_add l s) (Fin (Qc_of_Z (Z.of_nat (length l)) * c)).
Proof.
  revert s. induction l as [|x l IH]; intros s; simpl length.
  - simpl. change (Z.of_nat 0) with 0%Z. rewrite zero_Qc. destruct s; simpl; f_equal; ring.
  - cbn [fmap list_fmap fold_left]. rewrite IH. assert (E : num_add s (shifted c x) = num_add (num_add s x) (Fin c)) by (unfold shifted; apply num_add_assoc). rewrite E.
    assert (Hf : forall k t, fold_left num_add k (num_add t (Fin c)) = num_add (fold_left num_add k t) (Fin c)).
    { intros k. induction k as [|z k IHk]; intros t; [done|]. simpl. rewrite <-IHk. f_equal. rewrite <-!num_add_assoc. f_equal. apply num_add_comm. }
    rewrite Hf, <-num_add_assoc. f_equal. simpl. f_equal. rewrite Nat2Z.inj_succ, <-Z.add_1_l, Qc_of_Z_plus. replace (Qc_of_Z 1) with 1%Qc by (by apply Qc_is_canon). ring.
Qed.
Lemma mean_shifted c l : l <> [] -> num_mean (shifted c <$> l) = shifted c (num_mean l).
Proof.
  intros Hl. unfold num_mean. rewrite sum_shifted, fmap_length. destruct (num_of_nat_pos (length l)) as (q & Hq & Hpos); [by destruct l; simpl; [|lia]|].
  unfold num_of_nat, num_of_Z in Hq. injection Hq as Hq. rewrite Hq. unfold num_of_nat, num_of_Z. rewrite Hq. unfold shifted.
  assert (Hne : q <> 0%Qc) by (intros ->; by apply (Qclt_not_eq _ _ Hpos)).
  destruct (fold_left num_add l _) as [p| | |]; simpl; rewrite ?decide_False by done; try done; try (by destruct (Qc_ltb q 0)). simpl. f_equal. field. done.
Qed.
Lemma median_shifted c l : l <> [] -> num_median (shifted c <$> l) = shifted c (num_median l).
Proof.
  intros Hl. unfold num_median. rewrite sort_changed by apply shifted_increasing. cbn zeta. rewrite fmap_length, !list_lookup_fmap.
  assert (Hd : forall o : option num, default NaN (shifted c <$> o) = shifted c (default NaN o)) by (by intros []). rewrite !Hd.
  destruct (Nat.odd _); [done|]. apply shifted_mid.
Qed.
Lemma sub_shifted c a b : num_sub (shifted c a) (shifted c b) = num_sub a b.
Proof. unfold num_sub, shifted. destruct a as [p| | |], b as [q| | |]; simpl; try done. f_equal. ring. Qed.
Lemma var_shifted c ddof l : num_var ddof (shifted c <$> l) = num_var ddof l.
Proof.
  destruct (decide (l = [])) as [->|Hl]; [done|]. unfold num_var. cbn zeta. rewrite mean_shifted, fmap_length by done. f_equal. f_equal.
  rewrite <-list_fmap_compose. apply list_fmap_ext. intros _ n _. simpl. by rewrite sub_shifted.
Qed.
Lemma float_red_shifted op c l : op = RMean \/ op = RMedian \/ op = RMax \/ op = RMin -> float_red op (shifted c <$> l) = shifted c (float_red op l).
Proof.
  intros Hop. destruct l as [|x l]; [done|]. unfold float_red. cbn [fmap list_fmap]. change (shifted c x :: list_fmap _ _ (shifted c) l) with (shifted c <$> (x :: l)).
  destruct Hop as [->|[->|[->| ->]]].
  - by apply (mean_shifted c (x :: l)).
  - by apply (median_shifted c (x :: l)).
  - apply (fold1_changed num_max (shifted c) NaN (x :: l)); [|done]. intros a b. apply max_changed, shifted_increasing.
  - apply (fold1_changed num_min (shifted c) NaN (x :: l)); [|done]. intros a b. apply min_changed, shifted_increasing.
Qed.

(** * Scaling *)
Lemma sum_scaled c l s : c <> 0%Qc -> fold_left num_add (scaled c <$> l) (scaled c s) = scaled c (fold_left num_add l s).
Proof. intros Hc. revert s. induction l as [|x l IH]; intros s; [done|]. cbn [fmap list_fmap fold_left]. by rewrite scaled_add, IH. Qed.
Lemma scaled_0 c : scaled c (num_of_Z 0) = num_of_Z 0.
Proof. unfold scaled, num_of_Z. simpl. rewrite zero_Qc. f_equal. ring. Qed.
Lemma mean_scaled c l : c <> 0%Qc -> l <> [] -> num_mean (scaled c <$> l) = scaled c (num_mean l).
Proof.
  intros Hc Hl. unfold num_mean. rewrite <-(scaled_0 c) at 1. rewrite sum_scaled, fmap_length by done.
  destruct (num_of_nat_pos (length l)) as (q & -> & Hpos); [by destruct l; simpl; [|lia]|]. by apply scaled_div.
Qed.
Lemma median_scaled c l : (0 < c)%Qc -> num_median (scaled c <$> l) = scaled c (num_median l).
Proof.
  intros Hc. assert (Hne : c <> 0%Qc) by (intros ->; by apply (Qclt_not_eq _ _ Hc)). unfold num_median. rewrite sort_changed by (by apply scaled_increasing). cbn zeta. rewrite fmap_length, !list_lookup_fmap.
  assert (Hd : forall o : option num, default NaN (scaled c <$> o) = scaled c (default NaN o)) by (by intros []). rewrite !Hd.
  destruct (Nat.odd _); [done|]. rewrite scaled_add by done. by apply scaled_div.
Qed.
Lemma sub_scaled c a b : c <> 0%Qc -> num_sub (scaled c a) (scaled c b) = scaled c (num_sub a b).
Proof.
  intros Hc. unfold num_sub. rewrite <-scaled_add by done. f_equal. unfold scaled. destruct b; simpl; try done; [f_equal; ring|..]; unfold inf_sign; by repeat case_match.
Qed.
Lemma sqr_pos c : c <> 0%Qc -> (0 < c * c)%Qc.
Proof.
  intros Hc. destruct (Qc_dec 0 c) as [[H|H]|H]; [|..].
  - rewrite <-(Qcmult_0_l c). by apply Qcmult_lt_compat_r.
  - replace (c * c)%Qc with ((- c) * (- c))%Qc by ring. assert (0 < - c)%Qc as H' by (apply Qclt_minus_iff in H; by rewrite Qcplus_0_l in H).
    rewrite <-(Qcmult_0_l (- c)). by apply Qcmult_lt_compat_r.
  - by destruct Hc.
Qed.
Lemma sqr_scaled c a : c <> 0%Qc -> num_mul (scaled c a) (scaled c a) = scaled (c * c) (num_mul a a).
Proof.
  intros Hc. pose proof (sqr_pos c Hc) as Hp. assert (E : Qc_ltb 0 (c * c) = true) by (by apply Qc_ltb_lt).
  destruct a as [p| | |]; try done.
  - simpl. f_equal. ring.
  - simpl. unfold inf_sign. rewrite E. destruct (Qc_ltb 0 c) eqn:E1; [done|]. destruct (Qc_ltb c 0) eqn:E2; [done|].
    exfalso. apply Hc. apply Qcle_antisym; apply Qcnot_lt_le; rewrite <-Qc_ltb_lt; congruence.
  - simpl. unfold inf_sign. rewrite E. destruct (Qc_ltb 0 c) eqn:E1; [done|]. destruct (Qc_ltb c 0) eqn:E2; [done|].
    exfalso. apply Hc. apply Qcle_antisym; apply Qcnot_lt_le; rewrite <-Qc_ltb_lt; congruence.
Qed.
Lemma div_scaled_pos c a q : (0 < c)%Qc -> num_div (scaled c a) (Fin q) = scaled c (num_div a (Fin q)).
Proof.
  intros Hc. assert (E : Qc_ltb 0 c = true) by (by apply Qc_ltb_lt).
  assert (Hm : forall p, Qc_ltb 0 (p * c) = Qc_ltb 0 p /\ Qc_ltb (p * c) 0 = Qc_ltb p 0).
  { intros p. pose proof (increasing_ltb (scaled c) (Fin 0) (Fin p) (scaled_increasing c Hc)) as H1. pose proof (increasing_ltb (scaled c) (Fin p) (Fin 0) (scaled_increasing c Hc)) as H2.
    simpl in H1, H2. rewrite Qcmult_0_l in H1, H2. done. }
  destruct a as [p| | |]; simpl; try done.
  - case_decide; [|simpl; f_equal; field; done]. unfold inf_sign. destruct (Hm p) as [-> ->]. destruct (Qc_ltb 0 p), (Qc_ltb p 0); simpl; unfold inf_sign; by rewrite ?E.
  - unfold inf_sign. rewrite E. simpl. destruct (Qc_ltb q 0); simpl; unfold inf_sign; by rewrite E.
  - unfold inf_sign. rewrite E. simpl. destruct (Qc_ltb q 0); simpl; unfold inf_sign; by rewrite E.
Qed.
Lemma var_scaled c ddof l : c <> 0%Qc -> num_var ddof (scaled c <$> l) = scaled (c * c) (num_var ddof l).
Proof.
  intros Hc. pose proof (sqr_pos c Hc) as Hp. assert (Hne : (c * c)%Qc <> 0%Qc) by (intros E; rewrite E in Hp; by apply (Qclt_not_eq _ _ Hp)).
  unfold num_var. cbn zeta. rewrite fmap_length. change (num_of_Z (Z.of_nat (length l) - ddof)) with (Fin (Qc_of_Z (Z.of_nat (length l) - ddof))). rewrite <-div_scaled_pos by done. f_equal.
  rewrite <-sum_scaled, scaled_0 by done. f_equal. rewrite <-!list_fmap_compose. apply list_fmap_ext. intros i n Hn. simpl.
  rewrite mean_scaled by (done || by intros ->). by rewrite sub_scaled, sqr_scaled.
Qed.
Lemma float_red_scaled op c l : c <> 0%Qc -> op = RSum \/ op = RMean -> float_red op (scaled c <$> l) = scaled c (float_red op l).
Proof.
  intros Hc Hop. destruct l as [|x l]; [done|]. unfold float_red. cbn [fmap list_fmap]. change (scaled c x :: list_fmap _ _ (scaled c) l) with (scaled c <$> (x :: l)).
  destruct Hop as [-> | ->].
  - rewrite <-(scaled_0 c) at 1. by apply (sum_scaled c (x :: l)).
  - by apply (mean_scaled c (x :: l)).
Qed.
Lemma float_red_scaled_pos op c l : (0 < c)%Qc -> op = RSum \/ op = RMean \/ op = RMedian \/ op = RMax \/ op = RMin -> float_red op (scaled c <$> l) = scaled c (float_red op l).
Proof.
  intros Hc Hop. assert (Hne : c <> 0%Qc) by (intros ->; by apply (Qclt_not_eq _ _ Hc)). destruct Hop as [->|[->|Hop]]; [apply float_red_scaled; auto..|].
  destruct l as [|x l]; [done|]. unfold float_red. cbn [fmap list_fmap]. change (scaled c x :: list_fmap _ _ (scaled c) l) with (scaled c <$> (x :: l)).
  destruct Hop as [->|[->| ->]].
  - by apply (median_scaled c (x :: l)).
  - apply (fold1_changed num_max (scaled c) NaN (x :: l)); [|done]. intros a b. by apply max_changed, scaled_increasing.
  - apply (fold1_changed num_min (scaled c) NaN (x :: l)); [|done]. intros a b. by apply min_changed, scaled_increasing.
Qed.
(** * Increasing changes *)
Lemma float_red_increasing op h l : increasing h -> op = RMax \/ op = RMin -> float_red op (h <$> l) = h (float_red op l).
Proof.
  intros Hh Hop. assert (Hn : h NaN = NaN) by (by apply Hh). destruct l as [|x l]; [done|]. unfold float_red. cbn [fmap list_fmap].
  destruct Hop as [-> | ->].
  - apply (fold1_changed num_max h NaN (x :: l)); [|done]. intros a b. by apply max_changed.
  - apply (fold1_changed num_min h NaN (x :: l)); [|done]. intros a b. by apply min_changed.
Qed.
(** * Signs *)
Lemma neg_nan n : num_neg n = NaN <-> n = NaN.
Proof. by destruct n. Qed.
Lemma neg_ltb a b : num_ltb (num_neg a) (num_neg b) = num_ltb b a.
Proof.
  destruct a as [p| | |], b as [q| | |]; try done. simpl. apply eq_true_iff_eq. rewrite !Qc_ltb_lt. split; intros H.
  - apply Qclt_minus_iff in H. apply Qclt_minus_iff. by replace (p + - q)%Qc with (- q + - - p)%Qc by ring.
  - apply Qclt_minus_iff in H. apply Qclt_minus_iff. by replace (- q + - - p)%Qc with (p + - q)%Qc by ring.
Qed.
Lemma neg_le a b : num_le a b -> num_le (num_neg b) (num_neg a).
Proof.
  intros [H|[-> H]]; [left|right; split; [done|by rewrite neg_nan]]. apply num_ltb_lt. rewrite neg_ltb. by apply num_ltb_lt.
Qed.
Lemma max_neg a b : num_max (num_neg a) (num_neg b) = num_neg (num_min a b).
Proof. unfold num_max, num_min. rewrite neg_ltb. by destruct (num_ltb b a). Qed.
Lemma min_neg a b : num_min (num_neg a) (num_neg b) = num_neg (num_max a b).
Proof. unfold num_max, num_min. rewrite neg_ltb. by destruct (num_ltb a b). Qed.
Lemma fold1_neg f g l : (forall a b, f (num_neg a) (num_neg b) = num_neg (g a b)) -> fold1 f NaN (num_neg <$> l) = num_neg (fold1 g NaN l).
Proof.
  intros Hf. destruct l as [|x l]; [done|]. simpl. revert x. induction l as [|y l IH]; intros x; [done|]. simpl. by rewrite Hf, IH.
Qed.
Lemma sort_neg l : Forall (fun n => n <> NaN) l -> num_sort (num_neg <$> l) = reverse (num_neg <$> num_sort l).
Proof.
  intros Hn. apply sorted_nums_unique.
  - apply num_sort_sorted. apply Forall_fmap. eapply Forall_impl; [exact Hn|]. intros n Hne. simpl. by rewrite neg_nan.
  - pose proof (num_sort_sorted l Hn) as Hs. revert Hs. generalize (num_sort l). intros k Hs. induction Hs as [|x k Hs IH Hf]; [constructor|].
    rewrite fmap_cons, reverse_cons. clear Hs. revert IH Hf. rewrite <-fmap_reverse. intros IH Hf.
    assert (Hf' : Forall (num_le x) (reverse k)) by (by rewrite Forall_reverse). clear Hf. generalize dependent (reverse k). clear k. intros k IH Hf.
    induction k as [|y k IHk]; [repeat constructor|]. cbn [fmap list_fmap app] in *. inversion IH; subst. inversion Hf; subst. constructor; [by apply IHk|].
    apply Forall_app. split; [done|]. constructor; [by apply neg_le|constructor].
  - rewrite reverse_Permutation, num_sort_perm. apply fmap_Permutation. symmetry. apply num_sort_perm.
Qed.
Lemma median_neg l : Forall (fun n => n <> NaN) l -> l <> [] -> num_median (num_neg <$> l) = num_neg (num_median l).
Proof.
  intros Hn Hl. unfold num_median. rewrite sort_neg by done. cbn zeta. rewrite reverse_length, fmap_length.
  assert (Hlen : 0 < length (num_sort l)) by (rewrite num_sort_perm; destruct l; [done|simpl; lia]).
  set (s := num_sort l) in *. assert (Hd : forall o : option num, default NaN (num_neg <$> o) = num_neg (default NaN o)) by (by intros []).
  destruct (Nat.odd (length s)) eqn:E.
  - apply Nat.odd_spec in E as [m Hm]. rewrite reverse_lookup, fmap_length, list_lookup_fmap, Hd by (rewrite fmap_length; apply Nat.div_lt; lia). do 3 f_equal.
    rewrite Hm. replace (2 * m + 1) with (1 + m * 2) by lia. rewrite Nat.div_add by lia. change (1 / 2) with 0. lia.
  - rewrite <-Nat.negb_even in E. apply negb_false_iff, Nat.even_spec in E as [m Hm].
    assert (length s / 2 = m) as Hm2 by (rewrite Hm, Nat.mul_comm; by apply Nat.div_mul). rewrite Hm2.
    rewrite !reverse_lookup, fmap_length, !list_lookup_fmap, !Hd by (rewrite fmap_length; lia).
    replace (length s - S (m - 1)) with m by lia. replace (length s - S m) with (m - 1) by lia.
    destruct (default NaN (s !! m)) as [p| | |], (default NaN (s !! (m - 1))) as [q| | |]; try done.
    assert (H2 : Qc_of_Z 2 = (1 + 1)%Qc) by (by apply Qc_is_canon). unfold num_of_Z, num_neg, num_add, num_div. rewrite H2, !decide_False by done. f_equal. field. done.
Qed.
Lemma float_red_neg op op' l : Forall (fun n => n <> NaN) l -> (op, op') ∈ [(RMax, RMin); (RMin, RMax); (RMedian, RMedian)] ->
  float_red op (num_neg <$> l) = num_neg (float_red op' l).
Proof.
  intros Hn Hop. destruct l as [|x l]; [by rewrite !elem_of_cons in Hop; destruct Hop as [[= -> ->]|[[= -> ->]|[[= -> ->]|?%elem_of_nil]]]|].
  unfold float_red. cbn [fmap list_fmap]. change (num_neg x :: list_fmap _ _ num_neg l) with (num_neg <$> (x :: l)).
  rewrite !elem_of_cons in Hop; destruct Hop as [[= -> ->]|[[= -> ->]|[[= -> ->]|?%elem_of_nil]]]; [| | |done].
  - apply (fold1_neg num_max num_min (x :: l) max_neg).
  - apply (fold1_neg num_min num_max (x :: l) min_neg).
  - by apply (median_neg (x :: l)).
Qed.
