(** Proofs about [unique]. *)
From Verif Require Export Unique SortbyFacts QuantileFacts.

Lemma val_ne_false v w : val_ne v w = false <-> v = w /\ v <> VFloat NaN.
Proof. unfold val_ne. rewrite orb_false_iff, !bool_decide_eq_false. split; intros [H1 H2]; split; [by destruct (decide (v = w))|done|by intros []|done]. Qed.

Fixpoint heads (p : val * nat) (l : list (val * nat)) : list (val * nat) :=
  match l with
  | [] => [p]
  | q :: l => if val_ne q.1 p.1 then p :: heads q l else heads p l
  end.
Lemma compress_fmap {A B} (f : A -> B) flag l : compress flag (f <$> l) = f <$> compress flag l.
Proof.
  unfold compress. revert l. induction flag as [|b flag IH]; intros [|x l]; [done..|]. cbn [fmap list_fmap zip zip_with].
  destruct b.
  - rewrite !filter_cons_True by done. cbn. f_equal. apply IH.
  - rewrite !filter_cons_False by done. apply IH.
Qed.
Lemma compress_true {A} (x : A) flag l : compress (true :: flag) (x :: l) = x :: compress flag l.
Proof. unfold compress. cbn [zip zip_with]. by rewrite filter_cons_True by done. Qed.
Lemma compress_false {A} (x : A) flag l : compress (false :: flag) (x :: l) = compress flag l.
Proof. unfold compress. cbn [zip zip_with]. by rewrite filter_cons_False by done. Qed.
Lemma heads_compress p l : compress (true :: zip_with val_ne l.*1 (p.1 :: l.*1)) (p :: l) = heads p l.
Proof.
  rewrite compress_true. revert p. induction l as [|q l IH]; intros p; [done|]. cbn [fmap list_fmap zip_with heads].
  destruct (val_ne q.1 p.1) eqn:E.
  - rewrite compress_true. f_equal. apply IH.
  - rewrite compress_false. apply val_ne_false in E as [-> _]. apply IH.
Qed.
Lemma heads_head p l : exists q r, heads p l = q :: r /\ q.1 = p.1.
Proof. revert p. induction l as [|q l IH]; intros p; cbn; [by exists p, []|]. destruct (val_ne _ _); [by eexists _, _|apply IH]. Qed.
Lemma heads_index p l n k m q : cumsum_from n (zip_with val_ne l.*1 (p.1 :: l.*1)) !! k = Some m -> l !! k = Some q ->
  n <= m /\ (heads p l).*1 !! (m - n) = Some q.1.
Proof.
  revert p n k. induction l as [|r l IH]; intros p n k; [done|]. cbn [fmap list_fmap zip_with heads cumsum_from].
  destruct (val_ne r.1 p.1) eqn:E.
  - destruct k as [|k]; cbn.
    + intros [= <-] [= <-]. split; [lia|]. replace (n + 1 - n) with 1 by lia. cbn. destruct (heads_head r l) as (q & s & -> & Hq). cbn. by rewrite Hq.
    + intros Hm Hq. destruct (IH r (n + 1) k Hm Hq) as [Hle Hl]. split; [lia|]. replace (m - n) with (S (m - (n + 1))) by lia. done.
  - apply val_ne_false in E as [E _]. rewrite E. destruct k as [|k]; cbn.
    + intros [= <-] [= <-]. split; [lia|]. replace (n + 0 - n) with 0 by lia. destruct (heads_head p l) as (q & s & -> & Hq). cbn. by rewrite Hq, E.
    + rewrite Nat.add_0_r. intros Hm Hq. exact (IH p n k Hm Hq).
Qed.
Lemma heads_in p l q : q ∈ heads p l -> q ∈ p :: l.
Proof.
  revert p. induction l as [|r l IH]; intros p; cbn; [done|]. destruct (val_ne _ _).
  - rewrite !elem_of_cons. intros [->|H]; [by left|]. right. by apply elem_of_cons, IH.
  - intros H%IH. rewrite !elem_of_cons in *. tauto.
Qed.
Lemma heads_values p l v : v ∈ (heads p l).*1 <-> v ∈ (p :: l).*1.
Proof.
  split.
  - intros (q & -> & Hq%heads_in)%elem_of_list_fmap. by apply elem_of_list_fmap_1.
  - revert p. induction l as [|r l IH]; intros p; [done|]. cbn [heads]. destruct (val_ne r.1 p.1) eqn:E.
    + cbn. rewrite !elem_of_cons. intros [->|H]; [by left|]. right. apply IH. by apply elem_of_cons.
    + apply val_ne_false in E as [E _]. intros H. apply IH. cbn in *. rewrite E in H. rewrite !elem_of_cons in *. tauto.
Qed.
Lemma heads_sorted p l (R : val * nat -> val * nat -> Prop) : StronglySorted R (p :: l) -> StronglySorted R (heads p l).
Proof.
  revert p. induction l as [|r l IH]; intros p H; [done|]. cbn. inversion H as [|? ? Hs Hf]; subst. destruct (val_ne _ _).
  - constructor; [by apply IH|]. apply Forall_forall. intros q Hq%heads_in. rewrite Forall_forall in Hf. by apply Hf.
  - apply IH. inversion Hs as [|? ? Hs' Hf']; subst. constructor; [done|]. by apply Forall_cons in Hf as [_ ?].
Qed.
Lemma heads_nan p l : length (filter (fun v => v = VFloat NaN) (heads p l).*1) = length (filter (fun v => v = VFloat NaN) (p :: l).*1).
Proof.
  revert p. induction l as [|r l IH]; intros p; [done|]. cbn [heads]. destruct (val_ne r.1 p.1) eqn:E.
  - rewrite !fmap_cons. rewrite !(filter_cons _ p.1). destruct (decide (p.1 = VFloat NaN)); cbn [length]; rewrite IH; by rewrite fmap_cons.
  - apply val_ne_false in E as [E Hn]. rewrite IH, !fmap_cons, E. rewrite (filter_cons_False _ p.1 (p.1 :: l.*1)) by (by rewrite <-E). done.
Qed.

Lemma StronglySorted_weaken {A} (R S : A -> A -> Prop) l : (forall a b, R a b -> S a b) -> StronglySorted R l -> StronglySorted S l.
Proof. intros HRS H. induction H as [|a l H IH Hf]; [constructor|]. constructor; [done|]. eapply Forall_impl; [exact Hf|]. intros b. apply HRS. Qed.

Section sorted.
  Context (dt : dtype) (Hdt : dt <> DObj).
  Set Default Proof Using "All".
  Definition typed (p : val * nat) : Prop := has_dtype dt p.1 = true.
  Lemma val_le_antisym v w : has_dtype dt v = true -> has_dtype dt w = true -> val_le v w -> val_le w v -> v = w.
  Proof.
    intros Hv Hw. destruct (typed_num dt v Hdt Hv) as [[Es [s ->]]|[Hs [n Hn]]], (typed_num dt w Hdt Hw) as [[Es' [t ->]]|[Hs' [m Hm]]]; try done.
    - cbn. intros H1 H2. assert (LStr s = LStr t) as [= ->] by (by apply (anti_symm lab_le)). done.
    - intros H1 H2. assert (n = m) as ->.
      { assert (G1 : m = NaN \/ num_le n m) by (destruct v, w; try done; destruct H1 as (? & ? & Ha & Hb & H); simpl in *; simplify_eq; done).
        assert (G2 : n = NaN \/ num_le m n) by (destruct v, w; try done; destruct H2 as (? & ? & Ha & Hb & H); simpl in *; simplify_eq; done).
        destruct G1 as [->|G1], G2 as [->|G2]; [done| | |].
        - by apply num_le_nan in G2 as [? _].
        - by apply num_le_nan in G1 as [? _].
        - destruct G1 as [G1|[-> _]]; [|done]. by destruct (num_lt_not_le _ _ G1). }
      destruct dt, v, w; try done; simpl in Hn, Hm; simplify_eq; first [done|by f_equal; apply (inj num_of_Z)|repeat match goal with b : bool |- _ => destruct b end; done].
  Qed.
  Lemma head_again p q l r : Forall typed (p :: q :: l) -> StronglySorted (fun a b => val_le a.1 b.1) (p :: q :: l) ->
    val_ne q.1 p.1 = true -> p.1 <> VFloat NaN -> r ∈ q :: l -> r.1 <> p.1.
  Proof.
    intros Ht Hs Hne Hnan Hr E. inversion Hs as [|? ? Hs' Hf]; subst. apply Forall_cons in Hf as [Hpq Hpl].
    rewrite Forall_forall in Ht.
    assert (Hqr : r = q \/ val_le q.1 p.1).
    { apply elem_of_cons in Hr as [->|Hr]; [by left|]. right. inversion Hs' as [|? ? _ Hf']; subst. rewrite Forall_forall in Hf'. rewrite <-E. by apply Hf'. }
    assert (q.1 = p.1) as E'.
    { destruct Hqr as [->|Hqr]; [done|]. apply val_le_antisym; [apply Ht; right; by left|apply Ht; by left|done|done]. }
    unfold val_ne in Hne. apply orb_true_iff in Hne. rewrite !bool_decide_eq_true in Hne. destruct Hne as [H|H]; [done|]. congruence.
  Qed.
  Lemma heads_nodup p l : Forall typed (p :: l) -> StronglySorted (fun a b => val_le a.1 b.1) (p :: l) ->
    NoDup (filter (fun v => v <> VFloat NaN) (heads p l).*1).
  Proof.
    revert p. induction l as [|q l IH]; intros p Ht Hs.
    { cbn [heads fmap list_fmap]. rewrite filter_cons. destruct (decide _); [|constructor]. apply NoDup_singleton. }
    cbn [heads]. destruct (val_ne q.1 p.1) eqn:E.
    - rewrite fmap_cons, filter_cons. pose proof (IH q) as IHq. apply Forall_cons in Ht as Ht'. destruct Ht' as [Hp Hql].
      inversion Hs as [|? ? Hs' Hf]; subst. specialize (IHq Hql Hs'). destruct (decide (p.1 <> VFloat NaN)) as [Hn|]; [|done].
      constructor; [|done]. rewrite elem_of_list_filter. intros [_ (r & Er & Hr%heads_in)%elem_of_list_fmap].
      by apply (head_again p q l r Ht Hs E Hn Hr).
    - apply IH.
      + rewrite !Forall_cons in *. tauto.
      + inversion Hs as [|? ? Hs' Hf]; subst. inversion Hs'; subst. constructor; [done|]. by apply Forall_cons in Hf as [_ ?].
  Qed.
  Lemma heads_first p l q r : Forall typed (p :: l) ->
    StronglySorted (fun a b => val_le a.1 b.1 /\ (a.1 = b.1 -> a.2 < b.2)) (p :: l) ->
    q ∈ heads p l -> q.1 <> VFloat NaN -> r ∈ p :: l -> r.1 = q.1 -> q.2 <= r.2.
  Proof.
    revert p r. induction l as [|s l IH]; intros p r Ht Hs Hq Hn Hr E.
    { cbn in Hq. apply elem_of_list_singleton in Hq as ->. apply elem_of_list_singleton in Hr as ->. done. }
    inversion Hs as [|? ? Hs' Hf]; subst. apply Forall_cons in Ht as Ht'. destruct Ht' as [Hp Hsl]. cbn [heads] in Hq.
    destruct (val_ne s.1 p.1) eqn:En.
    - apply elem_of_cons in Hq as [->|Hq].
      + apply elem_of_cons in Hr as [->|Hr]; [done|]. rewrite Forall_forall in Hf. destruct (Hf r Hr) as [_ H]. specialize (H (eq_sym E)). lia.
      + apply elem_of_cons in Hr as [->|Hr]; [|by eapply IH].
        assert (Hs2 : StronglySorted (fun a b => val_le a.1 b.1) (p :: s :: l)).
        { eapply StronglySorted_weaken; [|exact Hs]. by intros ? ? [? _]. }
        exfalso. apply heads_in in Hq. apply (head_again p s l q Ht Hs2 En); [by rewrite E|done|done].
    - apply val_ne_false in En as [En _].
      assert (HsT : StronglySorted (fun a b => val_le a.1 b.1 /\ (a.1 = b.1 -> a.2 < b.2)) (p :: l)).
      { inversion Hs'; subst. constructor; [done|]. by apply Forall_cons in Hf as [_ ?]. }
      assert (HtT : Forall typed (p :: l)) by (rewrite !Forall_cons in *; tauto).
      apply elem_of_cons in Hr as [->|Hr]; [apply (IH p _); [done..|by left|done]|].
      apply elem_of_cons in Hr as [->|Hr].
      + apply Forall_cons in Hf as [[_ Hlt] _]. specialize (Hlt (eq_sym En)).
        assert (q.2 <= p.2); [|lia]. apply (IH p _); [done..|by left|congruence].
      + apply (IH p _); [done..|by right|done].
  Qed.
End sorted.

Lemma zip_sorted (R : val -> val -> Prop) (S : nat -> nat -> Prop) aux perm : length aux = length perm -> StronglySorted R aux ->
  (forall a b i j v, a < b -> perm !! a = Some i -> perm !! b = Some j -> aux !! a = Some v -> aux !! b = Some v -> S i j) ->
  StronglySorted (fun a b => R a.1 b.1 /\ (a.1 = b.1 -> S a.2 b.2)) (zip aux perm).
Proof.
  intros Hl Hs. revert perm Hl. induction Hs as [|v aux Hs IH Hf]; intros [|i perm] Hl HS; [constructor|done..|]. cbn. constructor.
  - apply IH; [by injection Hl|]. intros a b i' j' w Hab Ha Hb Hva Hvb. apply (HS (Datatypes.S a) (Datatypes.S b) i' j' w); [lia|done..].
  - apply Forall_forall. intros [w j] Hin. cbn. apply elem_of_list_lookup in Hin as [k Hk]. apply lookup_zip_with_Some in Hk as (w' & j' & [= <- <-] & Hw & Hj).
    split; [rewrite Forall_lookup in Hf; by eapply Hf|]. intros <-. apply (HS 0 (Datatypes.S k) i j v); [lia|done..].
Qed.
Lemma mapM_lookups {A} (l : list A) is xs : mapM (l !!.) is = Some xs <-> Forall2 (fun i x => l !! i = Some x) is xs.
Proof. apply mapM_Some. Qed.

Lemma unique_spec stable quick y ri rv : valid y -> ldtype y <> DObj ->
  argsorts_stable (data (larr y)) (stable (data (larr y))) -> argsorts (data (larr y)) (quick (data (larr y))) ->
  exists us idx inv, unique stable quick y ri rv = Ok (us, idx, inv) /\ unique_of (data (larr y)) us /\
    (if ri then exists is, idx = Some is /\ mapM (data (larr y) !!.) is = Some us /\
       forall k i v j, is !! k = Some i -> us !! k = Some v -> v <> VFloat NaN -> data (larr y) !! j = Some v -> i <= j
     else idx = None) /\
    (if rv then exists is, inv = Some is /\ mapM (us !!.) is = Some (data (larr y)) else inv = None).
Proof.
  intros Hv Hdt Hst Hqu. set (ar := data (larr y)) in *.
  assert (Hty : Forall (fun v => has_dtype (ldtype y) v = true) ar).
  { destruct Hv as [[_ Hd] _]. exact Hd. }
  unfold unique. fold ar. rewrite decide_False by done. destruct (decide (ar = [])) as [E|Hne].
  { exists [], (if ri then Some [] else None), (if rv then Some [] else None). rewrite E. split_and!; [done|..].
    - split_and!; [constructor|done|constructor|done].
    - destruct ri; [|done]. exists []. split_and!; [done|done|]. done.
    - destruct rv; [|done]. by exists []. }
  set (perm := if ri then stable ar else quick ar).
  assert (Hperm : argsorts ar perm) by (unfold perm; destruct ri; [apply Hst|done]).
  destruct Hperm as [Hpp (aux & Haux & Hsorted)]. rewrite Haux. cbn [of_opt mbind res_bind].
  assert (Hauxp : aux ≡ₚ ar) by (exact (perm_nodup_lookup ar perm aux Hpp Haux)).
  assert (Hlen : length aux = length perm) by (rewrite Hauxp, Hpp, seq_length; done).
  apply mapM_lookups in Haux as Hlook.
  destruct aux as [|a aux]. { apply Permutation_nil in Hauxp. done. }
  destruct perm as [|i0 perm'] eqn:Eperm; [done|]. cbn [tail].
  set (pl := zip aux perm'). assert (Hl' : length aux = length perm') by (by injection Hlen).
  assert (Epl1 : pl.*1 = aux) by (unfold pl; rewrite fst_zip; [done|lia]).
  assert (Epl2 : pl.*2 = perm') by (unfold pl; rewrite snd_zip; [done|lia]).
  set (flag := true :: zip_with val_ne aux (a :: aux)).
  assert (Hh : compress flag ((a, i0) :: pl) = heads (a, i0) pl).
  { unfold flag. rewrite <-(heads_compress (a, i0) pl). by rewrite Epl1. }
  assert (Hvals : compress flag (a :: aux) = (heads (a, i0) pl).*1).
  { rewrite <-Hh, <-compress_fmap. cbn [fmap list_fmap]. by rewrite Epl1. }
  assert (Hidx : compress flag (i0 :: perm') = (heads (a, i0) pl).*2).
  { rewrite <-Hh, <-compress_fmap. cbn [fmap list_fmap]. by rewrite Epl2. }
  assert (Hzip : (a, i0) :: pl = zip (a :: aux) (i0 :: perm')) by done.
  assert (Htyped : Forall (typed (ldtype y)) ((a, i0) :: pl)).
  { rewrite Hzip. apply Forall_forall. intros [v i] Hin%elem_of_zip_l. unfold typed. cbn. rewrite Forall_forall in Hty. apply Hty. by rewrite <-Hauxp. }
  assert (Hs1 : StronglySorted (fun a b => val_le a.1 b.1) ((a, i0) :: pl)).
  { pose proof (zip_sorted val_le (fun _ _ => True) (a :: aux) (i0 :: perm') Hlen Hsorted (fun _ _ _ _ _ _ _ _ _ _ => I)) as Hz.
    rewrite <-Hzip in Hz. eapply StronglySorted_weaken; [|exact Hz]. by intros ? ? [? _]. }
  assert (Hpair : forall v i, (v, i) ∈ (a, i0) :: pl -> ar !! i = Some v).
  { intros v i Hin. rewrite Hzip in Hin. apply elem_of_list_lookup in Hin as [k Hk].
    apply lookup_zip_with_Some in Hk as (v' & i' & [= <- <-] & Hv' & Hi'). destruct (Forall2_lookup_l _ _ _ _ _ Hlook Hi') as (w & Hw & Haw). congruence. }
  assert (Huniq : unique_of ar (heads (a, i0) pl).*1).
  { split_and!.
    - pose proof (heads_sorted (a, i0) pl _ Hs1) as Hs. clear -Hs. induction Hs as [|x l H IH Hf]; [constructor|]. cbn. constructor; [done|]. by apply Forall_fmap.
    - intros v. rewrite heads_values. cbn [fmap list_fmap]. rewrite Epl1. by rewrite Hauxp.
    - apply (heads_nodup (ldtype y) Hdt); done.
    - rewrite heads_nan. cbn [fmap list_fmap]. rewrite Epl1. by rewrite Hauxp. }
  assert (Hindex : ri = true -> mapM (ar !!.) (heads (a, i0) pl).*2 = Some (heads (a, i0) pl).*1 /\
    forall k i v j, (heads (a, i0) pl).*2 !! k = Some i -> (heads (a, i0) pl).*1 !! k = Some v -> v <> VFloat NaN -> ar !! j = Some v -> i <= j).
  { intros Hri. split.
    - apply mapM_lookups. apply Forall2_fmap, Forall_Forall2_diag, Forall_forall. intros [v i] Hin%heads_in. by apply Hpair.
    - intros k i v j Hi Hv' Hn Hj. apply list_lookup_fmap_inv in Hi as (p & -> & Hp). rewrite list_lookup_fmap, Hp in Hv'. cbn in Hv'. injection Hv' as <-.
      assert (Hs2 : StronglySorted (fun a b => val_le a.1 b.1 /\ (a.1 = b.1 -> a.2 < b.2)) ((a, i0) :: pl)).
      { rewrite Hzip. apply zip_sorted; [done|done|]. intros b c i j' w Hbc Hi Hj' Hwb Hwc.
        unfold perm in Eperm. rewrite Hri in Eperm. destruct Hst as [_ Hst]. rewrite Eperm in Hst.
        assert (Hw : forall k i, (i0 :: perm') !! k = Some i -> (a :: aux) !! k = Some w -> ar !! i = Some w).
        { intros k' i' Hi' Hw'. destruct (Forall2_lookup_l _ _ _ _ _ Hlook Hi') as (w' & Hw'' & Haw). congruence. }
        by apply (Hst b c i j' w); [done..| |]; eapply Hw. }
      assert (Hex : exists r, r ∈ (a, i0) :: pl /\ r.1 = p.1 /\ r.2 = j).
      { assert (Hjin : j ∈ i0 :: perm'). { rewrite Hpp. apply elem_of_seq. apply lookup_lt_Some in Hj. lia. }
        apply elem_of_list_lookup in Hjin as [m Hm]. destruct (Forall2_lookup_l _ _ _ _ _ Hlook Hm) as (w & Hw & Haw).
        exists (w, j). split_and!; [|cbn; congruence|done]. rewrite Hzip. apply elem_of_list_lookup. exists m. rewrite lookup_zip_with, Hw. cbn. by rewrite Hm. }
      destruct Hex as (r & Hr & E1 & <-). eapply (heads_first (ldtype y) Hdt (a, i0) pl); [done|done|by eapply elem_of_list_lookup_2|done..]. }
  assert (Hinv : exists l, mapM ((pred <$> cumsum_from 0 flag) !!.) (np_argsort ((fun k => VInt (Z.of_nat k)) <$> (i0 :: perm'))) = Some l /\
    mapM ((heads (a, i0) pl).*1 !!.) l = Some ar).
  { set (rs := np_argsort _).
    assert (Hrs : argsorts ((fun k => VInt (Z.of_nat k)) <$> (i0 :: perm')) rs).
    { apply (np_argsort_good DInt); [done|]. by apply Forall_fmap, Forall_forall. }
    assert (Hpn : length (i0 :: perm') = length ar) by (rewrite Hpp; by rewrite seq_length).
    assert (Hpp' : i0 :: perm' ≡ₚ seq 0 (length (i0 :: perm'))) by (by rewrite Hpn).
    pose proof (argsort_inverse _ _ Hpp' Hrs) as Hinvp.
    apply argsorts_lookup in Hrs as (Hrl & _ & Hrlt & _). rewrite fmap_length in Hrl, Hrlt.
    assert (Hcl : forall n fl, length (cumsum_from n fl) = length fl).
    { intros n fl. revert n. induction fl as [|b fl IH]; intros n; cbn; [done|]. by rewrite IH. }
    assert (Hfl : length flag = length (i0 :: perm')). { unfold flag. cbn. rewrite zip_with_length. cbn. lia. }
    assert (Hget : forall r, r < length (i0 :: perm') -> exists c v, (pred <$> cumsum_from 0 flag) !! r = Some c /\ (a :: aux) !! r = Some v /\
      (heads (a, i0) pl).*1 !! c = Some v).
    { intros r Hr. destruct (lookup_lt_is_Some_2 (cumsum_from 0 flag) r) as [m Hm]; [rewrite Hcl; lia|].
      destruct (lookup_lt_is_Some_2 ((a, i0) :: pl) r) as [q Hq]; [rewrite Hzip, zip_with_length; lia|].
      exists (pred m), q.1. split_and!; [by rewrite list_lookup_fmap, Hm| |].
      - rewrite Hzip in Hq. apply lookup_zip_with_Some in Hq as (v & i & -> & Hv' & _). done.
      - destruct r as [|r].
        + cbn in Hm, Hq. injection Hm as <-. injection Hq as <-. cbn. destruct (heads_head (a, i0) pl) as (q & s & -> & Hq). cbn. by rewrite Hq.
        + cbn in Hm, Hq. assert (Hm' : cumsum_from 1 (zip_with val_ne pl.*1 ((a, i0).1 :: pl.*1)) !! r = Some m) by (by rewrite Epl1).
          destruct (heads_index (a, i0) pl 1 r m q Hm' Hq) as [Hle Hl2]. by rewrite <-Nat.sub_1_r. }
    destruct (mapM_is_Some_2 ((pred <$> cumsum_from 0 flag) !!.) rs) as [l Hl].
    { apply Forall_lookup. intros k r Hk. destruct (Hget r (Hrlt _ _ Hk)) as (c & v & Hc & _). by exists c. }
    exists l. split; [done|]. apply mapM_lookups in Hl. apply mapM_lookups. apply Forall2_same_length_lookup_2.
    { apply Forall2_length in Hl. lia. }
    intros k c v Hc Hv'. destruct (Forall2_lookup_r _ _ _ _ _ Hl Hc) as (r & Hr & Hcr).
    destruct (Hget r (Hrlt _ _ Hr)) as (c' & v' & Hc' & Hav & Hhv). assert (c' = c) as -> by (rewrite Hcr in Hc'; by injection Hc'). rewrite Hhv. f_equal.
    pose proof (Hinvp k r Hr) as Hpk. destruct (Forall2_lookup_l _ _ _ _ _ Hlook Hpk) as (w & Hw & Haw). congruence. }
  destruct Hinv as (l & Hl & Hlu).
  exists (heads (a, i0) pl).*1, (if ri then Some (heads (a, i0) pl).*2 else None), (if rv then Some l else None).
  split_and!; [|done|..].
  - rewrite Hvals, Hidx. destruct rv; [rewrite Hl|]; done.
  - destruct ri; [|done]. destruct (Hindex eq_refl). eexists. split_and!; [reflexivity|done..].
  - destruct rv; [|done]. eexists. split; [reflexivity|done].
Qed.

Lemma stable_argsort_good dt vs : dt <> DObj -> Forall (fun v => has_dtype dt v = true) vs -> argsorts_stable vs (stable_argsort vs).
Proof.
  intros Hd Hty. unfold argsorts_stable, argsorts, stable_argsort. set (ps := merge_sort _ _).
  assert (Hperm : ps ≡ₚ zip vs (seq 0 (length vs))) by apply merge_sort_Permutation.
  assert (Hsort : StronglySorted stable_order ps).
  { assert (Transitive stable_order).
    { intros p q r [H1 H2] [H3 H4]. split; [by eapply val_order_trans|]. intros H5. etrans; [apply H2|apply H4].
      - eapply val_order_trans; [exact H3|exact H5].
      - eapply val_order_trans; [exact H5|exact H1]. }
    assert (Total stable_order).
    { intros p q. unfold stable_order. destruct (decide (pair_order p q)) as [G|G], (decide (pair_order q p)) as [G'|G'].
      - destruct (le_ge_dec p.2 q.2); [left|right]; split; auto.
      - left. split; [done|]. intros; done.
      - right. split; [done|]. intros; done.
      - destruct (val_order_total p.1 q.1); done. }
    apply (StronglySorted_merge_sort stable_order). }
  assert (Hlook : forall a p, ps !! a = Some p -> vs !! p.2 = Some p.1).
  { intros a [v i] E. apply elem_of_list_lookup_2 in E. rewrite Hperm in E. apply zip_seq_elem in E as [_ E]. by rewrite Nat.sub_0_r in E. }
  assert (Hdup : NoDup ps.*2) by (rewrite Hperm, snd_zip by (by rewrite seq_length); apply NoDup_seq).
  split; [split|].
  - change (ps.*2 ≡ₚ seq 0 (length vs)). rewrite Hperm. rewrite snd_zip; [done|]. by rewrite seq_length.
  - exists ps.*1. split.
    + apply mapM_Some_lookup. change (map snd ps) with (ps.*2). rewrite !fmap_length. split; [done|]. intros i x Hx.
      change (ps.*2 !! i = Some x) in Hx. rewrite list_lookup_fmap in Hx. rewrite list_lookup_fmap. destruct (ps !! i) as [[v k]|] eqn:E; [|done]. simpl in *. injection Hx as <-.
      exact (Hlook _ _ E).
    + assert (Hp : Forall (fun p => has_dtype dt p.1 = true) ps).
      { rewrite Hperm. apply Forall_forall. intros [v k] Hk. apply zip_seq_elem in Hk as [_ Hk].
        rewrite Forall_forall in Hty. apply Hty. by eapply elem_of_list_lookup_2. }
      clear Hperm Hlook Hdup. clearbody ps. induction Hsort as [|p ps Hs IH Hx]; csimpl; [constructor|]. apply Forall_cons in Hp as [Hp0 Hp].
      constructor; [by apply IH|]. apply Forall_fmap. rewrite Forall_forall in Hx, Hp |- *. intros q Hq.
      eapply val_order_le; [done..|by apply Hp|by apply Hx].
  - change (map snd ps) with (ps.*2). intros a b i j v Hab Hi Hj Hvi Hvj.
    apply list_lookup_fmap_inv in Hi as (p & -> & Hp), Hj as (q & -> & Hq).
    assert (Epq : p.1 = q.1). { pose proof (Hlook _ _ Hp). pose proof (Hlook _ _ Hq). congruence. }
    assert (Hle : stable_order p q).
    { pose proof (elem_of_StronglySorted_app stable_order (take b ps) (drop b ps) p q) as Happ. rewrite take_drop in Happ.
      apply Happ; [done|..].
      - eapply elem_of_list_lookup_2. rewrite lookup_take; [exact Hp|done].
      - eapply (elem_of_list_lookup_2 _ 0). rewrite lookup_drop, Nat.add_0_r. exact Hq. }
    destruct Hle as [_ Hle]. assert (p.2 <= q.2).
    { apply Hle. unfold pair_order. rewrite Epq. destruct (val_order_total q.1 q.1); done. }
    assert (p.2 <> q.2); [|lia]. intros E. assert (a = b); [|lia].
    eapply NoDup_lookup; [exact Hdup|rewrite list_lookup_fmap, Hp; reflexivity|rewrite list_lookup_fmap, Hq; cbn; by rewrite E].
Qed.

Lemma unique_no_nan stable quick y ri rv us idx inv : valid y -> ldtype y <> DObj ->
  argsorts_stable (data (larr y)) (stable (data (larr y))) -> argsorts (data (larr y)) (quick (data (larr y))) ->
  VFloat NaN ∉ data (larr y) -> unique stable quick y ri rv = Ok (us, idx, inv) ->
  NoDup us /\ StronglySorted val_le us /\ (forall v, v ∈ us <-> v ∈ data (larr y)).
Proof.
  intros Hv Hd Hs Hq Hn E. destruct (unique_spec stable quick y ri rv Hv Hd Hs Hq) as (us' & idx' & inv' & E' & (H1 & H2 & H3 & H4) & _).
  rewrite E in E'. injection E' as <- <- <-. split_and!; [|done..].
  assert (E' : filter (fun v => v <> VFloat NaN) us = us); [|by rewrite E' in H3].
  assert (Hall : Forall (fun v => v <> VFloat NaN) us). { apply Forall_forall. intros v Hv' ->. by apply Hn, H2. }
  clear -Hall. induction Hall as [|v us Hv _ IH]; [done|]. rewrite filter_cons_True by done. by rewrite IH.
Qed.
