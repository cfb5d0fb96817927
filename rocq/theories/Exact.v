(** Exact conditions for the success of morph, union, intersection, align_axis
    and sortaxis. *)
From Verif Require Export AlignMore.

Lemma morph_iff y label axis :
  valid y -> (exists z, morph y label axis = Ok z) <-> (exists ax, axis_is y axis ax) /\ NoDup label.
Proof.
  intros Hv. split.
  - intros [z H]. apply morph_spec in H as (ax & old & Hax & _ & Hnd & _); [|done]. split; [|done]. exists ax. by apply py_axis_is.
  - intros [[ax Hax] Hnd]. apply py_axis_is in Hax. by eapply morph_ok.
Qed.
Lemma union_iff axis args :
  (exists u, union_labels axis args = Ok u) <->
  Forall (fun y => exists l, axis_label_is y axis l) args /\ all_sortable axis args.
Proof.
  split; [|intros [? ?]; by apply union_ok]. intros [u H]. pose proof (union_spec _ _ _ H) as (_ & Hall & Hin). split; [done|].
  unfold union_labels in H. apply bind_ok in H as (rc & HF & Hs). pose proof (proj1 (py_sorted_ok _ _ Hs)) as Hso.
  pose proof (proj2 (proj2 (py_sorted_ok _ _ Hs))) as Hp.
  pose proof (proj1 (sortable_spec _) Hso) as Hc. intros y1 y2 l1 l2 a b Hy1 Hy2 Hl1 Hl2 Ha Hb.
  apply Hc; rewrite <-Hp; apply Hin; eauto.
Qed.
Lemma intersection_iff axis args :
  (exists u, intersection_labels axis args = Ok u) <->
  args <> [] /\ Forall (fun y => exists l, axis_label_is y axis l) args /\
  forall a b, (forall y l, y ∈ args -> axis_label_is y axis l -> a ∈ l /\ b ∈ l) -> a = b \/ comparable a b = true.
Proof.
  split.
  - intros [u H]. pose proof (intersection_spec _ _ _ H) as (Hne & _ & Hall & Hin). split; [done|]. split; [done|].
    unfold intersection_labels in H. destruct args as [|a0 rest]; [done|].
    apply bind_ok in H as (l0 & _ & H). apply bind_ok in H as (rc & HF & Hs). pose proof (proj1 (py_sorted_ok _ _ Hs)) as Hso.
    pose proof (proj2 (proj2 (py_sorted_ok _ _ Hs))) as Hp.
    pose proof (proj1 (sortable_spec _) Hso) as Hc. intros a b Hab. rewrite Forall_forall in Hall.
    apply Hc; rewrite <-Hp; apply Hin; intros y Hy; destruct (Hall y Hy) as [l Hl]; exists l; (split; [done|]); by destruct (Hab y l Hy Hl).
  - intros (Hne & Hall & Hc). unfold intersection_labels. destruct args as [|a0 rest]; [done|].
    inversion Hall as [|? ? [l0 Hl0] Hrest]; subst. pose proof (proj2 (label_at_is _ _ _) Hl0) as E. rewrite E. simpl.
    destruct (inter_fold_ex axis rest (remove_dups l0) Hrest) as [rc HF]. rewrite HF. simpl.
    apply inter_fold in HF as (_ & _ & Hin); [|apply NoDup_remove_dups]. apply py_sorted_total, sortable_spec.
    intros a b [Ha Ha']%Hin [Hb Hb']%Hin. rewrite elem_of_remove_dups in Ha, Hb. apply Hc. intros y l Hy Hl.
    apply elem_of_cons in Hy as [-> |Hy].
    + by rewrite (axis_label_is_unique _ _ _ _ Hl Hl0).
    + destruct (Ha' y Hy) as (l1 & Hl1 & ?). destruct (Hb' y Hy) as (l2 & Hl2 & ?).
      rewrite (axis_label_is_unique _ _ _ _ Hl1 Hl) in *. by rewrite (axis_label_is_unique _ _ _ _ Hl2 Hl) in *.
Qed.
Lemma sortaxis_iff y axis (reverse : bool) :
  valid y ->
  (exists z, sortaxis y axis reverse = Ok z) <->
  (forall a, axis = Some a -> exists ax, axis_is y a ax) /\
  (forall ax l, axis_selected y axis ax -> llabel y !! ax = Some l -> all_comparable l).
Proof.
  intros Hv. split; [|intros [? ?]; by apply sortaxis_ok]. intros [z H]. split.
  - intros a ->. unfold sortaxis in H. cbn in H. destruct (sortaxis_step reverse y y a) as [w|] eqn:E; [|done].
    unfold sortaxis_step in E. apply bind_ok in E as (n & Hn & _). apply of_opt_ok in Hn.
    unfold py_get in Hn. apply bind_Some in Hn as (i & Hi & _). exists i. apply py_axis_is. unfold py_axis.
    rewrite <-(valid_shape y Hv), fmap_length in Hi. by rewrite Hi.
  - intros ax l. by eapply sortaxis_comparable.
Qed.

(** A fold that reads something of every element. *)
Lemma foldM_reads {S A B} (g : A -> res B) (h : S -> B -> S) s (ps : list A) r :
  foldM (fun s p => b ← g p; Ok (h s b)) s ps = Ok r <-> exists bs, Forall2 (fun p b => g p = Ok b) ps bs /\ r = foldl h s bs.
Proof.
  revert s. induction ps as [|p ps IH]; intros s; cbn [foldM].
  - split; [intros [= <-]; exists []; by split; [constructor|]|]. intros (bs & HF & ->). by inversion HF.
  - destruct (g p) as [b|e] eqn:E; cbn [mbind res_bind].
    + rewrite IH. split.
      * intros (bs & HF & ->). exists (b :: bs). split; [by constructor|done].
      * intros (bs & HF & ->). inversion HF as [|? b' ? bs' Hb HF']; subst. assert (b' = b) as -> by congruence. exists bs'. split; [exact HF'|done].
    + split; [done|]. intros (bs & HF & _). inversion HF as [|? b' ? bs' Hb HF']; subst. congruence.
Qed.
Lemma foldl_filter_in (ls : list (list lab)) (l0 : list lab) x :
  x ∈ foldl (fun s l => filter (fun x => x ∈ l) s) l0 ls <-> x ∈ l0 /\ forall l, l ∈ ls -> x ∈ l.
Proof.
  revert l0. induction ls as [|l ls IH]; intros l0; simpl.
  - split; [intros ?; split; [done|]; intros l Hl; by apply elem_of_nil in Hl|by intros [? _]].
  - rewrite IH, elem_of_list_filter. setoid_rewrite elem_of_cons. naive_solver.
Qed.
Lemma foldl_join_in (ls : list (list lab)) (l0 : list lab) x :
  x ∈ foldl (fun s l => remove_dups (s ++ l)) l0 ls <-> x ∈ l0 \/ exists l, l ∈ ls /\ x ∈ l.
Proof.
  revert l0. induction ls as [|l ls IH]; intros l0; simpl.
  - split; [by left|]. intros [?|(l & Hl & _)]; [done|]. by apply elem_of_nil in Hl.
  - rewrite IH, elem_of_remove_dups, elem_of_app. setoid_rewrite elem_of_cons. naive_solver.
Qed.
Lemma foldl_filter_nodup (ls : list (list lab)) (l0 : list lab) : NoDup l0 -> NoDup (foldl (fun s l => filter (fun x => x ∈ l) s) l0 ls).
Proof. revert l0. induction ls as [|l ls IH]; intros l0 Hnd; simpl; [done|]. apply IH. by apply NoDup_filter. Qed.
Lemma foldl_join_nodup (ls : list (list lab)) (l0 : list lab) : NoDup l0 -> NoDup (foldl (fun s l => remove_dups (s ++ l)) l0 ls).
Proof. revert l0. induction ls as [|l ls IH]; intros l0 Hnd; simpl; [done|]. apply IH. apply NoDup_remove_dups. Qed.

Lemma consulted_unique lars axes i l l' : consulted lars axes i l -> consulted lars axes i l' -> l = l'.
Proof. intros (y & a & Hy & Ha & Hl) (y' & a' & Hy' & Ha' & Hl'). simplify_eq. by eapply axis_label_is_unique. Qed.

(** The labels that the fold of align_axis reads. *)
Lemma consulted_list y0 rest a0 axes :
  (exists l0 bs, label_at y0 a0 = Ok l0 /\
     Forall2 (fun p b => (a ← of_opt IndexError ((a0 :: axes) !! p.1); label_at p.2 a) = Ok b)
       (zip (seq 0 (length rest)) rest) bs) <->
  forall i, i < length (y0 :: rest) -> exists l, consulted (y0 :: rest) (a0 :: axes) i l.
Proof.
  split.
  - intros (l0 & bs & Hl0 & HF) i Hi. destruct i as [|i].
    + exists l0, y0, a0. split_and!; [done..|]. by apply label_at_is.
    + cbn in Hi. destruct (lookup_lt_is_Some_2 rest i) as [y Hy]; [lia|].
      destruct (Forall2_lookup_l _ _ _ i (i, y) HF) as (b & Hb & E).
      { apply lookup_zip_with_Some. exists i, y. split_and!; [done| |done]. apply lookup_seq. lia. }
      cbn in E. apply bind_ok in E as (a & Ha & E). apply of_opt_ok in Ha. exists b, y, a. split_and!; [done|done|]. by apply label_at_is.
  - intros Hall. destruct (Hall 0) as (l0 & y & a & [= <-] & [= <-] & Hl0); [cbn; lia|]. apply label_at_is in Hl0. exists l0.
    cut (exists bs, Forall2 (fun p b => (a ← of_opt IndexError ((a0 :: axes) !! p.1); label_at p.2 a) = Ok b) (zip (seq 0 (length rest)) rest) bs).
    { intros [bs ?]. by exists bs. }
    assert (exists bs, mapR (fun p : nat * larry => a ← of_opt IndexError ((a0 :: axes) !! p.1); label_at p.2 a) (zip (seq 0 (length rest)) rest) = Ok bs) as [bs H].
    { apply mapR_total. intros [i y] [k Hk]%elem_of_list_lookup. apply lookup_zip_with_Some in Hk as (i' & y' & [= -> ->] & Hi & Hy).
      apply lookup_seq in Hi as [-> Hk]. cbn [fst snd plus].
      destruct (Hall (S k)) as (l & y & a & Hy' & Ha & Hl); [cbn; lia|]. change (rest !! k = Some y) in Hy'.
      rewrite Hy in Hy'. injection Hy' as <-.
      change ((take 1 (a0 :: axes) ++ a0 :: axes) !! S k) with ((a0 :: axes) !! k) in Ha. rewrite Ha. exists l. cbn [of_opt mbind res_bind]. by apply label_at_is. }
    exists bs. by apply mapR_ok.
Qed.
Lemma consulted_elems y0 rest a0 axes l0 bs l :
  label_at y0 a0 = Ok l0 ->
  Forall2 (fun p b => (a ← of_opt IndexError ((a0 :: axes) !! p.1); label_at p.2 a) = Ok b) (zip (seq 0 (length rest)) rest) bs ->
  (exists i, consulted (y0 :: rest) (a0 :: axes) i l) <-> l = l0 \/ l ∈ bs.
Proof.
  intros Hl0 HF. split.
  - intros [[|i] (y & a & Hy & Ha & Hl)].
    + cbn in Hy, Ha. simplify_eq. apply label_at_is in Hl. left. congruence.
    + right. cbn in Hy. change ((a0 :: axes) !! i = Some a) in Ha.
      destruct (Forall2_lookup_l _ _ _ i (i, y) HF) as (b & Hb & E).
      { apply lookup_zip_with_Some. exists i, y. split_and!; [done| |done]. apply lookup_seq. split; [done|]. by eapply lookup_lt_Some. }
      cbn [fst snd] in E. rewrite Ha in E. cbn in E. apply label_at_is in Hl. apply elem_of_list_lookup. exists i. congruence.
  - intros [-> |[i Hi]%elem_of_list_lookup].
    + exists 0, y0, a0. split_and!; [done..|]. by apply label_at_is.
    + destruct (Forall2_lookup_r _ _ _ i l HF Hi) as ([k y] & Hk & E).
      apply lookup_zip_with_Some in Hk as (i' & y' & [= -> ->] & Hi' & Hy). apply lookup_seq in Hi' as [-> _]. cbn [fst snd plus] in E.
      apply bind_ok in E as (a & Ha & E). apply of_opt_ok in Ha. exists (S i), y', a. split_and!; [done|done|]. by apply label_at_is.
Qed.

Lemma align_axis_label_any lars axes j :
  length axes = length lars -> j = JInner \/ j = JOuter ->
  (forall u, align_axis_label lars axes j = Ok u ->
     StronglySorted lab_lt u /\ forall x, x ∈ u <-> join_consulted lars axes j x) /\
  ((exists u, align_axis_label lars axes j = Ok u) <->
   lars <> [] /\ (forall i, i < length lars -> exists l, consulted lars axes i l) /\
   forall a b, join_consulted lars axes j a -> join_consulted lars axes j b -> a = b \/ comparable a b = true).
Proof.
  intros Hlen Hj. destruct lars as [|y0 rest]; [by split; [|split; [intros [u H]|intros [? _]]]|].
  destruct axes as [|a0 axes]; [done|].
  assert (Hall := consulted_list y0 rest a0 axes). assert (Hel := consulted_elems y0 rest a0 axes).
  set (read := fun p : nat * larry => a ← of_opt IndexError ((a0 :: axes) !! p.1); label_at p.2 a) in *.
  set (h := fun (s l : list lab) => match j with JInner => filter (fun x => x ∈ l) s | _ => remove_dups (s ++ l) end).
  assert (E : align_axis_label (y0 :: rest) (a0 :: axes) j =
    (l0 ← label_at y0 a0; l ← foldM (fun s p => b ← read p; Ok (h s b)) (remove_dups l0) (zip (seq 0 (length rest)) rest); py_sorted l)).
  { unfold align_axis_label, read, h. cbn [head of_opt]. cbn [mbind res_bind].
    destruct Hj as [-> | ->]; (destruct (label_at y0 a0) as [l0|]; [|done]); cbn [mbind res_bind];
      generalize (remove_dups l0) as s; generalize (zip (seq 0 (length rest)) rest) as ps; intros ps s; f_equal;
      revert s; (induction ps as [|p ps IH]; intros s; [done|]); cbn [foldM];
      (destruct ((a0 :: axes) !! p.1) as [a|]; [|done]); cbn [of_opt mbind res_bind];
      (destruct (label_at p.2 a) as [l|]; [|done]); cbn [mbind res_bind]; apply IH. }
  assert (Hin : forall l0 bs, label_at y0 a0 = Ok l0 -> Forall2 (fun p b => read p = Ok b) (zip (seq 0 (length rest)) rest) bs ->
      NoDup (foldl h (remove_dups l0) bs) /\
      forall x, x ∈ foldl h (remove_dups l0) bs <-> join_consulted (y0 :: rest) (a0 :: axes) j x).
  { intros l0 bs Hl0 HF. pose proof (Hel l0 bs) as He. destruct Hj as [-> | ->]; cbn [join_consulted]; unfold h.
    - split; [apply foldl_filter_nodup, NoDup_remove_dups|]. intros x. rewrite foldl_filter_in, elem_of_remove_dups. split.
      + intros [H1 H2] i l Hl. destruct (proj1 (He l Hl0 HF)) as [-> |?]; [by exists i|done|by apply H2].
      + intros H. split; [destruct (proj2 (He l0 Hl0 HF)) as [i Hi]; [by left|by eapply H]|].
        intros l Hl. destruct (proj2 (He l Hl0 HF)) as [i Hi]; [by right|by eapply H].
    - split; [apply foldl_join_nodup, NoDup_remove_dups|]. intros x. rewrite foldl_join_in, elem_of_remove_dups. split.
      + intros [H|(l & H1 & H2)]; [destruct (proj2 (He l0 Hl0 HF)) as [i Hi]; [by left|by exists i, l0]|].
        destruct (proj2 (He l Hl0 HF)) as [i Hi]; [by right|by exists i, l].
      + intros (i & l & Hl & Hx). destruct (proj1 (He l Hl0 HF)) as [-> |?]; [by exists i|by left|by right; exists l]. }
  rewrite E. clear E. split.
  - intros u H. apply bind_ok in H as (l0 & Hl0 & H). apply bind_ok in H as (rc & HF & Hs).
    apply foldM_reads in HF as (bs & HF & ->). destruct (Hin l0 bs Hl0 HF) as [Hnd Hx].
    apply py_sorted_ok in Hs as (_ & Hs & Hp). split; [apply sorted_lt_nodup; [done|by rewrite Hp]|]. intros x. by rewrite Hp, Hx.
  - split.
    + intros [u H]. apply bind_ok in H as (l0 & Hl0 & H). apply bind_ok in H as (rc & HF & Hs).
      apply foldM_reads in HF as (bs & HF & ->). destruct (Hin l0 bs Hl0 HF) as [Hnd Hx].
      apply py_sorted_ok in Hs as (Hso & _ & _). split; [done|]. split; [apply Hall; by exists l0, bs|].
      intros a b Ha Hb. apply Hx in Ha, Hb. pose proof (proj1 (sortable_spec _) Hso) as Hc. by apply Hc.
    + intros (_ & Hc & Hcmp). apply Hall in Hc as (l0 & bs & Hl0 & HF). destruct (Hin l0 bs Hl0 HF) as [Hnd Hx].
      rewrite Hl0. cbn [mbind res_bind].
      rewrite (proj2 (foldM_reads read h (remove_dups l0) _ (foldl h (remove_dups l0) bs))); [|by exists bs]. cbn [mbind res_bind].
      apply py_sorted_total, sortable_spec. intros a b Ha%Hx Hb%Hx. by apply Hcmp.
Qed.

Lemma align_axis_any lars axes j zs :
  Forall valid lars -> length axes = length lars -> j = JInner \/ j = JOuter -> align_axis lars axes j = Ok zs ->
  exists u, StronglySorted lab_lt u /\ (forall x, x ∈ u <-> join_consulted lars axes j x) /\ length zs = length lars /\
  forall i y z, lars !! i = Some y -> zs !! i = Some z ->
    exists a ax old, axes !! i = Some a /\ axis_is y a ax /\ llabel y !! ax = Some old /\
    llabel z = <[ax := u]> (llabel y) /\ realigned y z.
Proof.
  intros Hv Hlen Hj H. apply align_axis_spec in H as (u & Hu & HL & Hz); [|done]. exists u.
  destruct (align_axis_label_any lars axes j Hlen Hj) as [Hs _]. by destruct (Hs u Hu).
Qed.
Lemma align_axis_has lars axes j zs :
  Forall valid lars -> align_axis lars axes j = Ok zs ->
  lars <> [] /\ j <> JSkip /\ j <> JBad /\ forall i y a, lars !! i = Some y -> axes !! i = Some a -> exists ax, axis_is y a ax.
Proof.
  intros Hv H. assert (H' := H). apply align_axis_spec in H' as (u & Hu & HL & Hz); [|done].
  split; [by intros ->|]. unfold align_axis in H. apply bind_ok in H as (us & _ & H).
  destruct (decide (j = JSkip \/ j = JBad)) as [|Hj]; [done|]. split; [tauto|]. split; [tauto|].
  intros i y a Hy Ha. destruct (lookup_lt_is_Some_2 zs i) as [z Hz']; [rewrite HL; by eapply lookup_lt_Some|].
  destruct (Hz i y z Hy Hz') as (a' & ax & _ & Ha' & Hax & _). exists ax. congruence.
Qed.
Lemma align_axis_iff lars axes j :
  Forall valid lars -> length axes = length lars ->
  (exists zs, align_axis lars axes j = Ok zs) <->
  lars <> [] /\ j <> JSkip /\ j <> JBad /\
  (forall i y a, lars !! i = Some y -> axes !! i = Some a -> exists ax, axis_is y a ax) /\
  (j = JInner \/ j = JOuter ->
   (forall i, i < length lars -> exists l, consulted lars axes i l) /\
   forall a b, join_consulted lars axes j a -> join_consulted lars axes j b -> a = b \/ comparable a b = true).
Proof.
  intros Hv Hlen. split.
  - intros [zs H]. destruct (align_axis_has _ _ _ _ Hv H) as (H1 & H2 & H3 & H4). split_and!; try done.
    apply align_axis_spec in H as (u & Hu & _); [|done].
    intros Hj. destruct (align_axis_label_any lars axes j Hlen Hj) as [_ Hi].
    destruct (proj1 Hi (ex_intro _ _ Hu)) as (_ & ? & ?). done.
  - intros (Hne & Hj1 & Hj2 & Hax & Hio).
    assert (Hu : exists u, align_axis_label lars axes j = Ok u /\ NoDup u).
    { destruct (decide (j = JInner \/ j = JOuter)) as [Hj|Hj].
      - destruct (align_axis_label_any lars axes j Hlen Hj) as [Hs Hi]. destruct (Hio Hj) as [HA HB].
        destruct (proj2 Hi (conj Hne (conj HA HB))) as [u Hu]. exists u. split; [done|]. apply lt_sorted_nodup. by apply Hs.
      - assert (Hlr : j = JLeft \/ j = JRight) by (destruct j; tauto).
        cut (exists u, align_axis_label lars axes j = Ok u).
        { intros [u Hu]. exists u. split; [done|]. eapply (common_label_nodup lars axes j); [done|]. by apply align_axis_label_lr. }
        destruct lars as [|y0 rest]; [done|]. destruct axes as [|a0 axes]; [done|].
        assert (Hlab : forall y a ax, axis_is y a ax -> exists l, label_at y a = Ok l).
        { intros y a ax Ha. destruct (lookup_lt_is_Some_2 (llabel y) ax) as [l Hl]; [by destruct Ha|]. exists l. apply label_at_is. by exists ax. }
        destruct Hlr as [-> | ->].
        + destruct (Hax 0 y0 a0 eq_refl eq_refl) as [ax Ha]. by eapply Hlab.
        + unfold align_axis_label. cbn [head of_opt]. cbn [mbind res_bind].
          destruct (last (y0 :: rest)) as [yn|] eqn:Ly; [|by apply last_None in Ly].
          destruct (last (a0 :: axes)) as [an|] eqn:La; [|by apply last_None in La].
          cbn [of_opt mbind res_bind]. rewrite last_lookup in Ly. rewrite last_lookup, Hlen in La.
          destruct (Hax _ yn an Ly La) as [ax Ha]. by eapply Hlab. }
    destruct Hu as (u & Hu & Hnd). by eapply align_axis_ok.
Qed.
