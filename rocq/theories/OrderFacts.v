(** The model's order on labels is Python's. *)
From Verif Require Export LabFacts SpecOrder.
From Coq Require Import Ascii.

Lemma str_before_cmp s t :
  zlist_cmp ((fun c => Z.of_nat (nat_of_ascii c)) <$> list_ascii_of_string s) ((fun c => Z.of_nat (nat_of_ascii c)) <$> list_ascii_of_string t) = Lt <->
  str_before s t.
Proof.
  revert t. induction s as [|c s IH]; intros [|d t]; cbn [list_ascii_of_string fmap list_fmap zlist_cmp]; try (split; [done|by inversion 1]).
  - split; [constructor|done].
  - destruct (Z.compare_spec (Z.of_nat (nat_of_ascii c)) (Z.of_nat (nat_of_ascii d))) as [E|E|E].
    + assert (c = d) as ->.
      { rewrite <-(ascii_nat_embedding c), <-(ascii_nat_embedding d). f_equal. lia. }
      split; [intros H; apply sb_same; by apply IH|]. inversion 1; subst; [lia|by apply IH].
    + split; [intros _; apply sb_differ; lia|done].
    + split; [done|]. inversion 1; subst; lia.
Qed.
Lemma zcons_lt a l b l' : zlist_cmp (a :: l) (b :: l') = Lt <-> (a < b)%Z \/ a = b /\ zlist_cmp l l' = Lt.
Proof.
  cbn [zlist_cmp]. destruct (Z.compare_spec a b) as [E|E|E].
  - split; [intros H; by right|]. intros [?|[_ ?]]; [lia|done].
  - split; [intros _; by left|done].
  - split; [done|]. intros [?|[? _]]; lia.
Qed.
Lemma znil_lt l : zlist_cmp l [] = Lt <-> False.
Proof. by destruct l. Qed.
Lemma time_cmp h m s us h' m' s' us' : real_time h m s us -> real_time h' m' s' us' ->
  (h < h' \/ h = h' /\ (m < m' \/ m = m' /\ (s < s' \/ s = s' /\ (us < us' \/ us = us' /\ False))))%Z <->
  (since_midnight h m s us < since_midnight h' m' s' us')%Z.
Proof. unfold real_time, since_midnight. intros. split; intros; lia. Qed.

Lemma lablist_lt l l' : lablist_cmp l l' = Lt <->
  (exists p x r, l = p /\ l' = p ++ x :: r) \/ (exists p x r y r', l = p ++ x :: r /\ l' = p ++ y :: r' /\ lab_cmp x y = Lt).
Proof.
  split.
  - revert l'. induction l as [|x l IH]; intros [|y l']; cbn [lablist_cmp]; try done.
    + intros _. left. by exists [], y, l'.
    + destruct (lab_cmp x y) eqn:E; try done.
      * apply lab_cmp_eq in E as ->. intros [(p & z & r & -> & ->)|(p & a & r & b & r' & -> & -> & H)]%IH.
        -- left. by exists (y :: p), z, r.
        -- right. by exists (y :: p), a, r, b, r'.
      * intros _. right. by exists [], x, l, y, l'.
  - intros [(p & z & r & -> & ->)|(p & a & r & b & r' & -> & -> & H)]; induction p as [|w p IH]; cbn [lablist_cmp app].
    + done.
    + assert (lab_cmp w w = Eq) as -> by (by apply lab_cmp_eq). done.
    + by rewrite H.
    + assert (lab_cmp w w = Eq) as -> by (by apply lab_cmp_eq). done.
Qed.

Fixpoint complist (l1 l2 : list lab) : bool :=
  match l1, l2 with
  | x :: l1', y :: l2' => if decide (x = y) then complist l1' l2' else comparable x y
  | _, _ => true
  end.
Lemma comparable_tup l1 l2 : comparable (LTup l1) (LTup l2) = complist l1 l2.
Proof. simpl. revert l2. induction l1 as [|x l1 IH]; intros [|y l2]; simpl; try done. Qed.
Lemma complist_spec l l' : complist l l' = true <->
  (exists r, l' = l ++ r) \/ (exists r, l = l' ++ r) \/
  (exists p x r y r', l = p ++ x :: r /\ l' = p ++ y :: r' /\ x <> y /\ comparable x y = true).
Proof.
  split.
  - revert l'. induction l as [|x l IH]; intros [|y l']; cbn [complist].
    + intros _. left. by exists [].
    + intros _. left. by exists (y :: l').
    + intros _. right; left. by exists (x :: l).
    + destruct (decide (x = y)) as [->|Hne].
      * intros [[r ->]|[[r ->]|(p & a & r & b & r' & -> & -> & H)]]%IH.
        -- left. by exists r.
        -- right; left. by exists r.
        -- right; right. by exists (y :: p), a, r, b, r'.
      * intros H. right; right. by exists [], x, l, y, l'.
  - intros [[r ->]|[[r ->]|(p & a & r & b & r' & -> & -> & Hne & H)]].
    + induction l; cbn [complist app]; [done|by rewrite decide_True].
    + induction l'; cbn [complist app]; [by destruct r|by rewrite decide_True].
    + induction p; cbn [complist app]; [by rewrite decide_False|by rewrite decide_True].
Qed.
Lemma is_Some_None {A} (t t' : option A) : (is_Some t <-> is_Some t') <-> (t = None <-> t' = None).
Proof.
  destruct t as [a|], t' as [b|].
  - split; intros _; split; intros H; try done; by eexists.
  - split; intros [H1 H2]; exfalso; [destruct (H1 (ex_intro _ a eq_refl)); done|by specialize (H2 eq_refl)].
  - split; intros [H1 H2]; exfalso; [destruct (H2 (ex_intro _ b eq_refl)); done|by specialize (H1 eq_refl)].
  - split; intros _; split; intros H; done.
Qed.
Lemma comparable_spec a b : comparable a b = true <-> orderable a b.
Proof.
  revert b. induction a as [z|s|d|h m s us tz|y mo d h m s us tz|l IH] using lab_ind'; intros b.
  1-3: destruct b; simpl; split; try done; try (by inversion 1); constructor.
  1-2: destruct b; simpl; split; try done; try (by inversion 1); [intros H%bool_decide_eq_true; constructor; by apply is_Some_None|];
    inversion 1; subst; apply bool_decide_eq_true; by apply is_Some_None.
  destruct b as [| | | | |l']; [split; [done|by inversion 1]..|]. rewrite comparable_tup, complist_spec. split.
  - intros [[r ->]|[[r ->]|(p & a & r & b & r' & -> & -> & Hne & H)]]; [constructor..|].
    constructor; [done|]. rewrite Forall_forall in IH. apply (IH a); [apply elem_of_app; right; by left|done].
  - inversion 1 as [| | | | |p r|p r|p x r y r' Hne Ho]; subst; [left; by eexists|right; left; by eexists|right; right].
    exists p, x, r, y, r'. split_and!; [done..|]. rewrite Forall_forall in IH. apply IH; [apply elem_of_app; right; by left|done].
Qed.
Lemma plain_elem p x r : plain (LTup (p ++ x :: r)) -> plain x.
Proof. inversion 1 as [| | | | |? H']; subst. by apply Forall_app in H' as [_ H'%Forall_cons_1]; destruct H'. Qed.
Lemma str_before_irrefl s : ~ str_before s s.
Proof. induction s as [|c s IH]; inversion 1; subst; [lia|by apply IH]. Qed.
Lemma before_irrefl a : ~ before a a.
Proof.
  induction a as [z|s|d|h m s us tz|y mo d h m s us tz|l IH] using lab_ind'; inversion 1 as [|? ? Hs| | |? ? ? ? ? ? ? ? ? ? ? ? ? ? Hd|p x r E Hr|p x r x' r' Hb E1 E2]; subst; try lia.
  - by eapply str_before_irrefl.
  - unfold earlier_day in Hd. lia.
  - apply (f_equal length) in Hr. rewrite app_length in Hr. simpl in Hr. lia.
  - apply app_inv_head in E2. injection E2 as -> ->. rewrite Forall_forall in IH. apply (IH x); [apply elem_of_app; right; by left|done].
Qed.
Lemma complist_differ p x r y r' : x <> y -> complist (p ++ x :: r) (p ++ y :: r') = comparable x y.
Proof. intros Hne. induction p as [|a p IHp]; cbn [complist app]; [by rewrite decide_False|by rewrite decide_True]. Qed.
Lemma before_lab_lt a b : plain a -> plain b -> orderable a b -> (lab_lt a b <-> before a b).
Proof.
  unfold lab_lt. revert b. induction a as [z|s|d|h m s us tz|y mo d h m s us tz|l IH] using lab_ind'; intros b Ha Hb Ho.
  1-5: inversion Ho; subst; rewrite lab_cmp_key by (by left); simpl lab_key.
  - rewrite !zcons_lt, znil_lt. split; [intros [?|[_ [?|[? []]]]]; [lia|by constructor]|inversion 1; subst; right; split; [done|by left]].
  - rewrite zcons_lt, str_before_cmp. split; [intros [?|[_ ?]]; [lia|by constructor]|inversion 1; subst; by right].
  - rewrite !zcons_lt, znil_lt. split; [intros [?|[_ [?|[? []]]]]; [lia|by constructor]|inversion 1; subst; right; split; [done|by left]].
  - inversion Ha; inversion Hb; subst. rewrite !zcons_lt, znil_lt. split.
    + intros [?|[_ ?]]; [lia|]. constructor. by apply time_cmp.
    + inversion 1; subst. right. split; [done|]. by apply time_cmp.
  - inversion Ha; inversion Hb; subst. rewrite !zcons_lt, znil_lt, time_cmp by done. unfold earlier_day. split.
    + intros [?|[_ ?]]; [lia|]. constructor. unfold earlier_day. lia.
    + inversion 1 as [| | | |? ? ? ? ? ? ? ? ? ? ? ? ? ? Hd| |]; subst. unfold earlier_day in Hd. lia.
  - destruct b as [| | | | |l']; [by inversion Ho..|]. apply comparable_spec in Ho. rewrite comparable_tup in Ho. rewrite lab_cmp_tup, lablist_lt. split.
    + intros [(p & x & r & -> & ->)|(p & x & r & y & r' & -> & -> & H)]; [constructor|]. constructor.
      assert (x <> y) as Hne. { intros ->. assert (lab_cmp y y = Eq) by (by apply lab_cmp_eq). congruence. }
      rewrite complist_differ in Ho by done. rewrite Forall_forall in IH. apply IH; [apply elem_of_app; right; by left|by eapply plain_elem|by eapply plain_elem|by apply comparable_spec|done].
    + inversion 1 as [| | | | |p x r E1 E2|p x r y r' Hbe E1 E2]; subst; [left; by exists l, x, r|]. right. exists p, x, r, y, r'. split_and!; [done..|].
      assert (x <> y) as Hne by (intros ->; by eapply before_irrefl).
      rewrite complist_differ in Ho by done. rewrite Forall_forall in IH. apply IH; [apply elem_of_app; right; by left|by eapply plain_elem|by eapply plain_elem|by apply comparable_spec|done].
Qed.
Lemma py_sorted_iff l l' : Forall plain l ->
  (py_sorted l = Ok l' <-> (forall a b, a ∈ l -> b ∈ l -> a = b \/ orderable a b) /\ l' ≡ₚ l /\ StronglySorted (fun a b => a = b \/ before a b) l').
Proof.
  intros Hpl. rewrite Forall_forall in Hpl.
  assert (Hle : forall a b, a ∈ l -> b ∈ l -> a = b \/ orderable a b -> (lab_le a b <-> a = b \/ before a b)).
  { intros a b Ha Hb [->|Ho]; [split; [by left|done]|]. rewrite <-before_lab_lt by auto. rewrite lab_lt_le.
    destruct (decide (a = b)) as [->|]; naive_solver. }
  assert (Hss : forall k, (forall x, x ∈ k -> x ∈ l) -> (forall a b, a ∈ l -> b ∈ l -> a = b \/ orderable a b) ->
    StronglySorted lab_le k <-> StronglySorted (fun a b => a = b \/ before a b) k).
  { intros k Hk Hall. induction k as [|x k IH]; [split; constructor|]. split; inversion 1 as [|? ? Hs Hf]; subst; constructor.
    - apply IH; [|done]. intros; apply Hk; by right.
    - rewrite Forall_forall in *. intros y Hy. apply Hle; auto using elem_of_list_here, elem_of_list_further.
    - apply IH; [|done]. intros; apply Hk; by right.
    - rewrite Forall_forall in *. intros y Hy. apply Hle; auto using elem_of_list_here, elem_of_list_further. }
  assert (Hso : sortable l = true <-> forall a b, a ∈ l -> b ∈ l -> a = b \/ orderable a b).
  { rewrite sortable_spec. by setoid_rewrite comparable_spec. }
  split.
  - intros (H1 & H2 & H3)%py_sorted_ok. rewrite Hso in H1. split_and!; [done|done|]. rewrite <-Hss; [done| |done]. intros x. by rewrite H3.
  - intros (H1 & H2 & H3). rewrite <-Hss in H3; [|intros x; by rewrite H2|done]. rewrite <-(py_sorted_perm l' l) by done.
    apply py_sorted_sorted; [done|]. eapply sortable_incl; [|by rewrite Hso]. intros x. by rewrite H2.
Qed.
Lemma py_sorted_error l : (exists a b, a ∈ l /\ b ∈ l /\ a <> b /\ ~ orderable a b) -> py_sorted l = Err TypeError.
Proof.
  intros (a & b & Ha & Hb & Hne & Ho). unfold py_sorted. destruct (sortable l) eqn:E; [|done].
  exfalso. rewrite sortable_spec in E. destruct (E a b Ha Hb) as [?|?%comparable_spec]; done.
Qed.
Lemma lab_total a b : lab_lt a b \/ a = b \/ lab_lt b a.
Proof. unfold lab_lt. rewrite (lab_cmp_opp a b). destruct (lab_cmp a b) eqn:E; [right; left; by apply lab_cmp_eq|by left|by right; right]. Qed.
