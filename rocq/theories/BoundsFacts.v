(** C105: bounds of statistics. *)
From Verif Require Import NumFacts RankLarry MoveFacts SummaryFacts ShiftFacts LaneFacts SpecFacts PropsNumeric PropsMoving.
From Verif Require Import Numeric.
From Verif Require Export SpecBounds.
Local Open Scope nat_scope.

Lemma num_le_PInf a : num_le PInf a -> a = PInf.
Proof. destruct a; intros [H|[H _]]; simpl in *; done. Qed.
Lemma num_le_NInf a : num_le a NInf -> a = NInf.
Proof. destruct a; intros [H|[H _]]; simpl in *; done. Qed.
Lemma num_le_to_PInf a : a <> NaN -> num_le a PInf.
Proof. destruct a; intros H; try done; try (by left); by right. Qed.
Lemma num_le_from_NInf a : a <> NaN -> num_le NInf a.
Proof. destruct a; intros H; try done; try (by left); by right. Qed.
Lemma num_le_Fin p q : num_le (Fin p) (Fin q) <-> (p <= q)%Qc.
Proof.
  split.
  - intros [H|[[= ->] _]]; [by apply Qclt_le_weak|apply Qcle_refl].
  - intros H. apply Qcle_lt_or_eq in H as [H| ->]; [by left|by right].
Qed.
Lemma num_le_nan_l a : ~ num_le NaN a.
Proof. by intros [H|[_ H]]. Qed.
Lemma num_le_nan_r a : ~ num_le a NaN.
Proof. intros [H|[-> H]]; [by destruct a|done]. Qed.

Definition inside (lo hi n : num) : Prop := num_le lo n /\ num_le n hi.
Lemma Qc_zero : Qc_of_Z 0 = 0%Qc.
Proof. by apply Qc_is_canon. Qed.
Lemma Qc_succ n : Qc_of_Z (Z.of_nat (S n)) = (1 + Qc_of_Z (Z.of_nat n))%Qc.
Proof. rewrite Nat2Z.inj_succ, <-Z.add_1_l, Qc_of_Z_plus. replace (Qc_of_Z 1) with 1%Qc by (by apply Qc_is_canon). done. Qed.
Lemma Qc_sum_above a qs : Forall (fun q => a <= q)%Qc qs -> (a * Qc_of_Z (Z.of_nat (length qs)) <= Qc_sum qs)%Qc.
Proof.
  induction 1 as [|q qs H1 H IH]; unfold Qc_sum in *; cbn [length foldr].
  - change (Z.of_nat 0) with 0%Z. rewrite Qc_zero. replace (a * 0)%Qc with 0%Qc by ring. apply Qcle_refl.
  - rewrite Qc_succ. replace (a * _)%Qc with (a + a * Qc_of_Z (Z.of_nat (length qs)))%Qc by ring. by apply Qcplus_le_compat.
Qed.
Lemma Qc_sum_below b qs : Forall (fun q => q <= b)%Qc qs -> (Qc_sum qs <= b * Qc_of_Z (Z.of_nat (length qs)))%Qc.
Proof.
  induction 1 as [|q qs H1 H IH]; unfold Qc_sum in *; cbn [length foldr].
  - change (Z.of_nat 0) with 0%Z. rewrite Qc_zero. replace (b * 0)%Qc with 0%Qc by ring. apply Qcle_refl.
  - rewrite Qc_succ. replace (b * _)%Qc with (b + b * Qc_of_Z (Z.of_nat (length qs)))%Qc by ring. by apply Qcplus_le_compat.
Qed.
Lemma all_finite l q : num_total l = Fin q -> NaN ∉ l -> exists qs, l = Fin <$> qs.
Proof.
  revert q. induction l as [|n l IH]; intros q E Hn; [by exists []|].
  rewrite num_total_cons in E. rewrite not_elem_of_cons in Hn. destruct Hn as [Hn Hl].
  destruct n as [p| | |]; [|done|by destruct (num_total l)|by destruct (num_total l)].
  destruct (num_total l) as [r| | |] eqn:Er; try done. destruct (IH r) as [qs ->]; [done|done|]. by exists (p :: qs).
Qed.
Lemma num_of_nat_pos (n : nat) : n <> 0 -> (0 < Qc_of_Z (Z.of_nat n))%Qc.
Proof. intros H. apply Qc_of_Z_pos. lia. Qed.
Lemma not_ltb q : (0 < q)%Qc -> Qc_ltb q 0 = false.
Proof. intros H. destruct (Qc_ltb q 0) eqn:E; [|done]. apply Qc_ltb_lt in E. destruct (Qclt_not_le _ _ H). by apply Qclt_le_weak. Qed.
Lemma num_div_pos a k : (0 < k)%Qc -> num_div (Fin a) (Fin k) = Fin (a / k)%Qc.
Proof. intros H. unfold num_div. case_decide as E; [|done]. subst. by apply Qclt_not_eq in H. Qed.
Theorem mean_inside lo hi l : l <> [] -> Forall (inside lo hi) l -> bounded lo (mean_of l) hi.
Proof.
  intros Hne HF. assert (HN : NaN ∉ l). { intros H. rewrite Forall_forall in HF. destruct (HF _ H) as [H1 _]. by apply num_le_nan_r in H1. }
  assert (Hlen : length l <> 0) by (by destruct l). pose proof (num_of_nat_pos _ Hlen) as Hpos.
  assert (Hex : exists n, inside lo hi n). { destruct l as [|n l]; [done|]. exists n. by apply Forall_cons in HF as [? _]. }
  assert (lo <> NaN /\ hi <> NaN) as [Hlo Hhi].
  { destruct Hex as (n & H1 & H2). split; intros ->; [by apply num_le_nan_l in H1|by apply num_le_nan_r in H2]. }
  destruct (total_class l) as (C1 & C2 & C3). rewrite Forall_forall in HF.
  unfold mean_of, num_of_nat, num_of_Z. destruct (num_total l) as [s| | |] eqn:E.
  - rewrite num_div_pos by done. right. left. destruct (all_finite l s E HN) as [qs ->]. rewrite fmap_length in *.
    rewrite total_fin in E. injection E as <-. set (k := Qc_of_Z (Z.of_nat (length qs))) in *.
    assert (Hs : (Qc_sum qs / k * k = Qc_sum qs)%Qc). { field. intros E. rewrite E in Hpos. by apply Qclt_not_eq in Hpos. }
    assert (HI : forall q, q ∈ qs -> inside lo hi (Fin q)) by (intros q Hq; apply HF; by apply elem_of_list_fmap_1).
    split.
    + destruct lo as [a| | |]; [|done| |by left].
      * apply num_le_Fin. apply (Qcmult_lt_0_le_reg_r _ _ k Hpos). rewrite Hs.
        assert (Forall (fun q => a <= q)%Qc qs) as Ha. { apply Forall_forall. intros q Hq. apply num_le_Fin. by apply HI. }
        by apply Qc_sum_above.
      * destruct Hex as (n & H1 & _). destruct qs as [|q qs]; [done|]. destruct (HI q) as [H _]; [left|]. by apply num_le_PInf in H.
    + destruct hi as [b| | |]; [|done|by left|].
      * apply num_le_Fin. apply (Qcmult_lt_0_le_reg_r _ _ k Hpos). rewrite Hs.
        assert (Forall (fun q => q <= b)%Qc qs) as Ha. { apply Forall_forall. intros q Hq. apply num_le_Fin. by apply HI. }
        by apply Qc_sum_below.
      * destruct qs as [|q qs]; [done|]. destruct (HI q) as [_ H]; [left|]. by apply num_le_NInf in H.
  - right. right. destruct C1 as [?|[Hp Hn]]; [done|done|]. destruct (HF _ Hp) as [_ H1]. destruct (HF _ Hn) as [H2 _].
    apply num_le_PInf in H1 as ->. apply num_le_NInf in H2 as ->. done.
  - right. left. destruct (HF _ (C2 eq_refl)) as [_ H1]. apply num_le_PInf in H1 as ->.
    replace (num_div PInf _) with PInf; [split; by apply num_le_to_PInf|]. cbn. by rewrite not_ltb.
  - right. left. destruct (HF _ (C3 eq_refl)) as [H1 _]. apply num_le_NInf in H1 as ->.
    replace (num_div NInf _) with NInf; [split; by apply num_le_from_NInf|]. cbn. by rewrite not_ltb.
Qed.

Lemma fin_inj a b : Fin a = Fin b -> a = b.
Proof. congruence. Qed.
Lemma mean_two a b : mean_of [a; b] = num_div (num_add a b) (num_of_Z 2).
Proof. unfold mean_of. cbn [num_total foldr length]. rewrite num_add_0_r. done. Qed.
Lemma inside_bounded lo hi m : inside lo hi m -> bounded lo m hi.
Proof. intros [? ?]. right. by left. Qed.
Theorem median_inside lo hi l m : l <> [] -> Forall (inside lo hi) l -> median_of l m -> bounded lo m hi.
Proof.
  intros Hne HF (s & Hp & _ & H). rewrite Forall_forall in HF.
  assert (Hs : forall i a, s !! i = Some a -> inside lo hi a).
  { intros i a Hi. apply HF. rewrite <-Hp. by eapply elem_of_list_lookup_2. }
  case_decide.
  - eapply inside_bounded, Hs. done.
  - destruct H as (a & b & Ha & Hb & ->). rewrite <-mean_two. apply mean_inside; [done|]. constructor; [by eapply Hs|]. constructor; [by eapply Hs|constructor].
Qed.

Lemma total_nan (l : list num) : NaN ∈ l -> num_total l = NaN.
Proof.
  intros (l1 & l2 & ->)%elem_of_list_split. rewrite total_app, num_total_cons.
  change (num_add NaN (num_total l2)) with NaN. by destruct (num_total l1).
Qed.
Lemma finite_or_inf (l : list num) : NaN ∉ l -> (exists qs, l = Fin <$> qs) \/ PInf ∈ l \/ NInf ∈ l.
Proof.
  induction l as [|n l IH]; intros Hn; [left; by exists []|]. rewrite not_elem_of_cons in Hn. destruct Hn as [Hn Hl]. rewrite !elem_of_cons.
  destruct n as [q| | |]; [|done|by right; left; left|by right; right; left].
  destruct (IH Hl) as [[qs ->]|?]; [left; by exists (q :: qs)|tauto].
Qed.
Lemma Qc_square_nonneg (q : Qc) : (0 <= q * q)%Qc.
Proof. 
  destruct (Qclt_le_dec q 0) as [H|H].
  - replace (q * q)%Qc with ((- q) * (- q))%Qc by ring. assert (0 <= - q)%Qc as H'. { apply Qclt_le_weak, Qcopp_le_compat in H. by replace (- 0)%Qc with 0%Qc in H by ring. }
    rewrite <-(Qcmult_0_l (- q)). by apply Qcmult_le_compat_r.
  - rewrite <-(Qcmult_0_l q) at 1. by apply Qcmult_le_compat_r.
Qed.
Lemma Qc_sum_nonneg qs : Forall (fun q => 0 <= q)%Qc qs -> (0 <= Qc_sum qs)%Qc.
Proof. intros H. apply Qc_sum_above in H. by rewrite Qcmult_0_l in H. Qed.
Lemma Qc_sum_zero qs : Forall (fun q => 0 <= q)%Qc qs -> Qc_sum qs = 0%Qc -> Forall (fun q => q = 0%Qc) qs.
Proof.
  induction 1 as [|q qs Hq H IH]; intros E; [constructor|]. change (q + Qc_sum qs = 0)%Qc in E. pose proof (Qc_sum_nonneg _ H) as Hs.
  assert (q = 0%Qc) as ->.
  { apply Qcle_antisym; [|done]. rewrite <-E. rewrite <-(Qcplus_0_r q) at 1. apply Qcplus_le_compat; [apply Qcle_refl|done]. }
  constructor; [done|]. apply IH. rewrite <-E. ring.
Qed.
Lemma Qc_square_zero (q : Qc) : (q * q = 0)%Qc -> q = 0%Qc.
Proof. intros H. by destruct (Qcmult_integral _ _ H). Qed.
Lemma num_le_antisym a b : num_le a b -> num_le b a -> a = b.
Proof.
  intros [H|[-> _]]; [|done]. intros [H'|[-> _]]; [|done]. destruct a, b; simpl in *; try done.
  destruct (Qclt_not_le _ _ H). by apply Qclt_le_weak.
Qed.
Theorem variance_inside lo hi l ddof m : l <> [] -> NaN ∉ l -> (ddof <= 0)%Z ->
  lo ∈ l -> hi ∈ l -> Forall (inside lo hi) l -> reduced (RVar ddof) l m -> variance_bounded lo m hi.
Proof.
  intros Hne HN Hd Hlo Hhi HF ->. set (mu := mean_of l).
  set (sq := fun n : num => num_mul (num_sub n mu) (num_sub n mu)).
  pose proof (mean_inside lo hi l Hne HF) as Hb. change (mean_of l) with mu in Hb.
  assert (Hlen : length l <> 0) by (by destruct l).
  assert (Hk : (0 < Qc_of_Z (Z.of_nat (length l) - ddof))%Qc) by (apply Qc_of_Z_pos; lia).
  assert (lo <> NaN) by congruence. assert (hi <> NaN) by congruence. pose proof HF as HF'. rewrite Forall_forall in HF'.
  destruct (finite_or_inf l HN) as [[qs Hqs]|Hinf].
  - assert (exists u, mu = Fin u) as [u Hu].
    { unfold mu, mean_of. rewrite Hqs, total_fin. rewrite fmap_length. unfold num_of_nat, num_of_Z. rewrite num_div_pos; [eauto|].
      apply num_of_nat_pos. by rewrite Hqs, fmap_length in Hlen. }
    assert (Hsq : sq <$> l = Fin <$> ((fun q => (q + - u) * (q + - u))%Qc <$> qs)).
    { rewrite Hqs, <-!list_fmap_compose. apply list_fmap_ext. intros i q _. unfold compose, sq. by rewrite Hu. }
    set (ds := (fun q => (q + - u) * (q + - u))%Qc <$> qs) in *.
    assert (Hds : Forall (fun q => 0 <= q)%Qc ds). { apply Forall_fmap, Forall_forall. intros q _. apply Qc_square_nonneg. }
    fold sq. rewrite Hsq, total_fin. change (num_of_Z ?z) with (Fin (Qc_of_Z z)). rewrite num_div_pos by done. set (k := Qc_of_Z (Z.of_nat (length l) - ddof)) in *.
    assert (Hs : (Qc_sum ds / k * k = Qc_sum ds)%Qc). { field. intros E. rewrite E in Hk. by apply Qclt_not_eq in Hk. }
    assert (Hfin : forall n, n ∈ l -> exists q, n = Fin q). { intros n. rewrite Hqs. intros (q & -> & _)%elem_of_list_fmap. eauto. }
    unfold variance_bounded. split_and!.
    + split; [done|]. destruct (Hfin lo Hlo) as [? ->]. destruct (Hfin hi Hhi) as [? ->]. naive_solver.
    + intros _. apply num_le_Fin. apply (Qcmult_lt_0_le_reg_r _ _ k Hk). rewrite Hs, Qc_zero, Qcmult_0_l. by apply Qc_sum_nonneg.
    + unfold num_of_Z. rewrite Qc_zero. split.
      * intros E%fin_inj. rewrite E, Qcmult_0_l in Hs. symmetry in Hs. pose proof (Qc_sum_zero _ Hds Hs) as Hz.
        assert (Hall : forall n, n ∈ l -> n = Fin u).
        { intros n. rewrite Hqs. intros (q & -> & Hq)%elem_of_list_fmap. f_equal. rewrite Forall_forall in Hz.
          assert ((q + - u) * (q + - u) = 0)%Qc as E1 by (apply Hz; unfold ds; by apply (elem_of_list_fmap_1 (fun q => (q + - u) * (q + - u))%Qc)).
          apply Qc_square_zero in E1. replace q with (q + - u + u)%Qc by ring. rewrite E1. ring. }
        exists u. split; by apply Hall.
      * intros (q & -> & ->). assert (Hall : forall n, n ∈ l -> n = Fin q).
        { intros n Hn. destruct (HF' n Hn) as [H1 H2]. by apply num_le_antisym. }
        assert (mu = Fin q) as Emu. { destruct Hb as [(? & _)|[[H1 H2]|(? & _)]]; [done| |done]. by apply num_le_antisym. }
        rewrite Hu in Emu. apply fin_inj in Emu as ->. f_equal. assert (Qc_sum ds = 0%Qc) as ->; [|by field; intros E; rewrite E in Hk; apply Qclt_not_eq in Hk].
        apply Qcle_antisym; [|by apply Qc_sum_nonneg]. rewrite <-(Qcmult_0_l (Qc_of_Z (Z.of_nat (length ds)))). apply Qc_sum_below.
        apply Forall_fmap, Forall_forall. intros p Hp. cbn. assert (Fin p = Fin q) as ->%fin_inj by (apply Hall; rewrite Hqs; by apply elem_of_list_fmap_1).
        replace ((q + - q) * (q + - q))%Qc with 0%Qc by ring. apply Qcle_refl.
  - assert (Hext : lo = NInf \/ hi = PInf).
    { destruct Hinf as [Hi|Hi]; destruct (HF' _ Hi) as [H1 H2]; [right; by apply num_le_PInf|left; by apply num_le_NInf]. }
    assert (NaN ∈ sq <$> l) as Hnan.
    { destruct mu as [u| | |] eqn:Emu.
      - exfalso. unfold mu, mean_of in Emu. destruct (num_total l) as [s| | |] eqn:Et; try done.
        + destruct (all_finite l s Et HN) as [qs ->]. destruct Hinf as [(? & ? & _)%elem_of_list_fmap|(? & ? & _)%elem_of_list_fmap]; done.
        + cbn in Emu. by destruct (Qc_ltb _ _).
        + cbn in Emu. by destruct (Qc_ltb _ _).
      - replace NaN with (sq lo) at 1; [by apply elem_of_list_fmap_1|]. unfold sq, num_sub. by destruct lo.
      - replace NaN with (sq PInf); [|done]. apply elem_of_list_fmap_1.
        unfold mu, mean_of in Emu. destruct (num_total l) as [s| | |] eqn:Et; try done.
        + destruct (all_finite l s Et HN) as [qs ->]. destruct Hinf as [(? & ? & _)%elem_of_list_fmap|(? & ? & _)%elem_of_list_fmap]; done.
        + by apply (total_class l).
        + unfold num_of_nat, num_of_Z in Emu. cbn in Emu. rewrite not_ltb in Emu; [done|]. by apply num_of_nat_pos.
      - replace NaN with (sq NInf); [|done]. apply elem_of_list_fmap_1.
        unfold mu, mean_of in Emu. destruct (num_total l) as [s| | |] eqn:Et; try done.
        + destruct (all_finite l s Et HN) as [qs ->]. destruct Hinf as [(? & ? & _)%elem_of_list_fmap|(? & ? & _)%elem_of_list_fmap]; done.
        + unfold num_of_nat, num_of_Z in Emu. cbn in Emu. rewrite not_ltb in Emu; [done|]. by apply num_of_nat_pos.
        + by apply (total_class l). }
    fold sq. rewrite (total_nan _ Hnan). change (num_div NaN ?x) with NaN.
    unfold variance_bounded. split_and!; [tauto|done|]. split; [done|]. intros (q & -> & ->). by destruct Hext.
Qed.
