(** C106: the order of statistics. *)
From Verif Require Import NumFacts RankLarry MoveFacts SummaryFacts TwiceFacts LaneFacts SpecFacts StepsFacts MovingFacts PropsNumeric PropsMove PropsMoving.
From Verif Require Import Numeric.
From Verif Require Import BoundsFacts Bounds2Facts.
From Verif Require Export SpecMono.
Local Open Scope nat_scope.

Lemma Forall2_perm_r {A B} (R : A -> B -> Prop) k l l' : l ≡ₚ l' -> Forall2 R k l -> exists k', k ≡ₚ k' /\ Forall2 R k' l'.
Proof.
  intros Hp. revert k. induction Hp as [|x l l' _ IH|x y l|l1 l2 l3 _ IH1 _ IH2]; intros k H.
  - inversion H; subst. by exists [].
  - inversion H; subst. edestruct IH as (k' & Hk & H'); [done|]. eexists (_ :: k'). split; [by constructor|by constructor].
  - inversion H as [|a ? k1 ? Ha H1]; subst. inversion H1 as [|b ? k2 ? Hb H2]; subst. exists (b :: a :: k2). split; [constructor|by repeat constructor].
  - destruct (IH1 _ H) as (k1 & E1 & H1). destruct (IH2 _ H1) as (k2 & E2 & H2). exists k2. split; [by etrans|done].
Qed.
Lemma sorted_pointwise s' : StronglySorted num_le s' -> forall k s, k ≡ₚ s -> StronglySorted num_le s -> Forall2 num_le k s' -> Forall2 num_le s s'.
Proof.
  induction 1 as [|d s' Hs IH Hd]; intros k s Hp Hss HF.
  - inversion HF; subst. apply Permutation_nil in Hp as ->. constructor.
  - inversion HF as [|c ? k1 ? Hc H1]; subst. destruct s as [|x s]; [by symmetry in Hp; apply Permutation_nil in Hp|].
    inversion Hss as [|? ? Hs1 Hx]; subst.
    assert (Hxc : c = x \/ c ∈ s). { assert (c ∈ x :: s) as Hi by (rewrite <-Hp; left). apply elem_of_cons in Hi. naive_solver. }
    assert (Hkx : x = c \/ x ∈ k1). { assert (x ∈ c :: k1) as Hi by (rewrite Hp; left). by apply elem_of_cons in Hi. }
    destruct Hkx as [->|Hk].
    + constructor; [done|]. eapply IH; [by eapply Permutation_cons_inv|done|done].
    + destruct Hxc as [->|Hcs].
      * constructor; [done|]. eapply IH; [by eapply Permutation_cons_inv|done|done].
      * constructor. { eapply num_le_trans; [|done]. rewrite Forall_forall in Hx. by apply Hx. }
        apply elem_of_list_split in Hk as (a & b & ->). apply Forall2_app_inv_l in H1 as (a' & b' & Ha & Hb & ->).
        inversion Hb as [|? e ? b2 He Hb2]; subst.
        apply (IH (a ++ c :: b)); [|done|].
        -- apply (Permutation_cons_inv (a := x)). rewrite <-Hp. rewrite <-!Permutation_middle. apply Permutation_swap.
        -- apply Forall2_app; [done|]. constructor; [|done]. eapply num_le_trans; [done|]. rewrite Forall_forall in Hd. apply Hd. apply elem_of_app. right. left.
Qed.
Lemma total_perm l l' : l ≡ₚ l' -> num_total l = num_total l'.
Proof.
  induction 1 as [|x l l' _ IH|x y l|l1 l2 l3 _ IH1 _ IH2]; [done| | |by etrans].
  - rewrite !num_total_cons. by f_equal.
  - rewrite !num_total_cons, !num_add_assoc. f_equal. apply num_add_comm.
Qed.
Lemma sums_le ps qs : Forall2 (fun p q => p <= q)%Qc ps qs -> (Qc_sum ps <= Qc_sum qs)%Qc.
Proof. induction 1 as [|p q ps qs H _ IH]; unfold Qc_sum in *; simpl; [apply Qcle_refl|]. by apply Qcplus_le_compat. Qed.
Lemma finite_le l l' : Forall (fun n => is_finite n = true) l -> Forall (fun n => is_finite n = true) l' -> Forall2 num_le l l' ->
  exists ps qs, l = Fin <$> ps /\ l' = Fin <$> qs /\ Forall2 (fun p q => p <= q)%Qc ps qs.
Proof.
  intros H1 H2 H. revert H1 H2. induction H as [|m n l l' Hm H IH]; intros H1 H2; [exists [], []; by repeat constructor|].
  apply Forall_cons in H1 as [F1 H1]. apply Forall_cons in H2 as [F2 H2]. destruct (IH H1 H2) as (ps & qs & -> & -> & HF).
  destruct m as [p| | |]; try done. destruct n as [q| | |]; try done. exists (p :: ps), (q :: qs). split_and!; try done. constructor; [by apply num_le_Fin|done].
Qed.
(** The statistics that follow the order; infinities only with the extremes. *)
Definition ordered_op (op : red_op) : Prop := op = RSum \/ op = RMean \/ op = RMedian.
Lemma reduced_mono op k l l' m m' : k ≡ₚ l -> l' <> [] -> Forall2 num_le k l' ->
  (op = RMin \/ op = RMax) \/ ordered_op op /\ Forall (fun n => is_finite n = true) k /\ Forall (fun n => is_finite n = true) l' ->
  reduced op l m -> reduced op l' m' -> num_le m m'.
Proof.
  intros Hp Hne HF [[-> | ->]|(Hop & F1 & F2)].
  - intros [_ H2] [H1' _]. apply elem_of_list_lookup in H1' as [i Hi]. destruct (Forall2_lookup_r _ _ _ _ _ HF Hi) as (x & Hx & Hle).
    eapply num_le_trans; [|done]. apply H2. rewrite <-Hp. by eapply elem_of_list_lookup_2.
  - intros [H1 _] [_ H2']. rewrite <-Hp in H1. apply elem_of_list_lookup in H1 as [i Hi]. destruct (Forall2_lookup_l _ _ _ _ _ HF Hi) as (x & Hx & Hle).
    eapply num_le_trans; [done|]. apply H2'. by eapply elem_of_list_lookup_2.
  - destruct (finite_le _ _ F1 F2 HF) as (ps & qs & -> & -> & HQ). pose proof (Forall2_length _ _ _ HQ) as Hlen.
    assert (qs <> []) as Hqs by (by intros ->). assert (ps <> []) as Hps by (intros ->; by destruct qs).
    destruct Hop as [->|[->| ->]]; simpl.
    + intros -> ->. rewrite <-(total_perm _ _ Hp), !total_fin. apply num_le_Fin. by apply sums_le.
    + intros -> ->. assert (mean_of l = mean_of (Fin <$> ps)) as ->. { unfold mean_of. by rewrite (total_perm _ _ Hp), (Permutation_length Hp). }
      rewrite !mean_fin by done. apply num_le_Fin. rewrite Hlen. unfold Qcdiv. apply Qcmult_le_compat_r; [by apply sums_le|].
      apply Qclt_le_weak, Qcinv_pos. apply num_of_nat_pos. by destruct qs.
    + intros (s & Es & Ss & Hs) (s' & Es' & Ss' & Hs').
      symmetry in Es'. destruct (Forall2_perm_r _ _ _ _ Es' HF) as (k' & Ek & HF').
      assert (HS : Forall2 num_le s s'). { eapply sorted_pointwise; [done| |done|done]. by rewrite <-Ek, Hp, Es. }
      rewrite <-(Permutation_length Hp), !fmap_length, Hlen in Hs. rewrite !fmap_length in Hs'.
      destruct (decide (length qs mod 2 = 1)).
      * by eapply Forall2_lookup_lr.
      * destruct Hs as (a & b & Ha & Hb & ->). destruct Hs' as (a' & b' & Ha' & Hb' & ->).
        pose proof (Forall2_lookup_lr _ _ _ _ _ _ HS Ha Ha') as L1. pose proof (Forall2_lookup_lr _ _ _ _ _ _ HS Hb Hb') as L2.
        assert (Hfin : forall e, e ∈ s \/ e ∈ s' -> exists q, e = Fin q).
        { intros e [H|H]; [rewrite Es, <-Hp in H|rewrite <-Es' in H]; apply elem_of_list_fmap in H as (q & -> & _); by exists q. }
        destruct (Hfin a) as [qa ->]. { left. by eapply elem_of_list_lookup_2. } destruct (Hfin b) as [qb ->]. { left. by eapply elem_of_list_lookup_2. }
        destruct (Hfin a') as [qa' ->]. { right. by eapply elem_of_list_lookup_2. } destruct (Hfin b') as [qb' ->]. { right. by eapply elem_of_list_lookup_2. }
        apply num_le_Fin in L1, L2. cbn [num_add]. unfold num_of_Z. rewrite !num_div_pos by done. apply num_le_Fin. unfold Qcdiv.
        apply Qcmult_le_compat_r; [by apply Qcplus_le_compat|done].
Qed.
