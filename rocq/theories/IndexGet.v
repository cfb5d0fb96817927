(** [y[index]] keeps the labels of every cell. *)
From Verif Require Export IndexFacts.

Lemma py_slice_all {A} (l : list A) : py_slice slice_all l = Ok l.
Proof. apply py_slice_Ok. eexists. split; [apply slice_positions_all|]. rewrite mapM_seq_take by lia. by rewrite firstn_all. Qed.

(** * Labels of tuple indices *)

Lemma axis_sel_pad y items ax :
  valid y -> length items <= lndim y -> forall l it, llabel y !! ax = Some l -> pad (lndim y) items !! ax = Some it ->
  axis_sel y items ax = item_label (length l) l it.
Proof.
  intros Hv Hlen l it Hl Hit. unfold axis_sel.
  assert (lshape y !! ax = Some (length l)) as -> by (apply valid_axis; eauto). simpl.
  apply axis_label_ok in Hl. rewrite Hl. simpl. unfold pad in Hit.
  destruct (decide (ax < length items)) as [Hlt|Hlt].
  - rewrite lookup_app_l in Hit by done. by rewrite Hit.
  - rewrite lookup_app_r in Hit by lia. apply lookup_replicate in Hit as [-> _].
    rewrite lookup_ge_None_2 by lia. simpl. by rewrite py_slice_all.
Qed.
Lemma Forall3_of_lookup {A B C} (P : A -> B -> C -> Prop) l k m :
  length l = length k -> length k = length m ->
  (forall i a b c, l !! i = Some a -> k !! i = Some b -> m !! i = Some c -> P a b c) -> Forall3 P l k m.
Proof.
  revert k m. induction l as [|a l IH]; intros [|b k] [|c m] H1 H2 H; try done; constructor.
  - exact (H 0 a b c eq_refl eq_refl eq_refl).
  - apply IH; [by injection H1|by injection H2|]. intros i. exact (H (S i)).
Qed.
Lemma Forall3_lookup_lmr' {A B C} (P : A -> B -> C -> Prop) l k m i a b c :
  Forall3 P l k m -> l !! i = Some a -> k !! i = Some b -> m !! i = Some c -> P a b c.
Proof.
  intros H. revert i. induction H as [|? ? ? ? ? ? HP H IH]; intros i; [done|].
  destruct i as [|i]; simpl; [by intros [= ->] [= ->] [= ->]|apply IH].
Qed.
Lemma Forall3_lengths {A B C} (P : A -> B -> C -> Prop) l k m : Forall3 P l k m -> length l = length k /\ length k = length m.
Proof. induction 1 as [|? ? ? ? ? ? _ _ [IH1 IH2]]; simpl; [done|]. split; f_equal; done. Qed.

Lemma tuple_label_ok y items label :
  valid y -> length items <= lndim y ->
  tuple_label y items = Ok label <->
  exists os, Forall3 (fun l it o => item_label (length l) l it = Ok o) (llabel y) (pad (lndim y) items) os /\ label = somes os.
Proof.
  intros Hv Hlen. unfold tuple_label. rewrite bind_ok. setoid_rewrite mapR_ok.
  pose proof (pad_length _ _ Hlen) as Hpl. pose proof (valid_ndim y Hv) as Hnd.
  split; intros (os & H & Hl); exists os.
  - split; [|by injection Hl as <-]. pose proof (Forall2_length _ _ _ H) as Hol. rewrite seq_length in Hol.
    apply Forall3_of_lookup; [lia|lia|]. intros i l it o Hli Hit Ho.
    rewrite <-(axis_sel_pad y items i Hv Hlen l it Hli Hit).
    eapply Forall2_lookup_lr in H; [exact H| |exact Ho]. apply lookup_seq_lt. apply lookup_lt_Some in Hli. lia.
  - split; [|by f_equal]. pose proof (Forall3_lengths _ _ _ _ H) as [H1 H2].
    apply Forall2_same_length_lookup. split; [rewrite seq_length; lia|]. intros i ax o Hax Ho.
    apply lookup_seq in Hax as [-> Hi]. simpl.
    assert (is_Some (llabel y !! i)) as [l Hl'] by (apply lookup_lt_is_Some; lia).
    assert (is_Some (pad (lndim y) items !! i)) as [it Hit] by (apply lookup_lt_is_Some; lia).
    rewrite (axis_sel_pad y items i Hv Hlen l it Hl' Hit). exact (Forall3_lookup_lmr' _ _ _ _ i l it o H Hl' Hit Ho).
Qed.

Lemma items_sound L its os rs :
  Forall item_ok its ->
  Forall3 (fun l it o => item_label (length l) l it = Ok o) L its os ->
  Forall3 (fun n it r => resolve n it = Ok r) (length <$> L) its rs ->
  exists ss, Forall3 selects L its ss /\ sels L rs ss /\ os = sel_opt <$> ss.
Proof.
  intros Hok H. revert rs. induction H as [|l it o L its os Ho H IH]; intros rs Hr.
  { inversion Hr; subst. exists []. split_and!; constructor. }
  simpl in Hr. inversion Hr as [|? ? r ? ? rs' Hr1 Hr2]; subst. apply Forall_cons in Hok as [Hok1 Hok].
  destruct (item_sound l it o r Hok1 Ho Hr1) as (s & Hs1 & Hs2 & ->).
  destruct (IH Hok _ Hr2) as (ss & Hss1 & Hss2 & ->). exists (s :: ss). split_and!; try done; by constructor.
Qed.
Lemma items_complete L its ss :
  Forall item_ok its -> Forall3 selects L its ss ->
  exists rs, Forall3 (fun n it r => resolve n it = Ok r) (length <$> L) its rs /\ sels L rs ss /\
  Forall3 (fun l it o => item_label (length l) l it = Ok o) L its (sel_opt <$> ss).
Proof.
  intros Hok H. induction H as [|l it s L its ss Hs H IH].
  { exists []. split_and!; constructor. }
  apply Forall_cons in Hok as [Hok1 Hok]. destruct (item_complete l it s Hok1 Hs) as (r & H1 & H2 & H3).
  destruct (IH Hok) as (rs & H4 & H5 & H6). exists (r :: rs). split_and!; simpl; by constructor.
Qed.
Lemma somes_sel_opt ss : somes (sel_opt <$> ss) = sel_labels ss.
Proof. induction ss as [|[x|l] ss IH]; simpl; [done|exact IH|]. unfold somes, sel_labels in *. simpl. f_equal. exact IH. Qed.
Lemma pad_ok n items : Forall item_ok items -> Forall item_ok (pad n items).
Proof. intros H. unfold pad. apply Forall_app. split; [done|]. by apply Forall_replicate. Qed.

(** * Kinds of entries *)
Lemma kinds_lists items rs : Forall2 same_kind items rs -> existsb b_list items = true <-> list_lens rs <> [].
Proof.
  induction 1 as [|it r items rs Hk H IH]; simpl; [done|]. destruct it, r; simpl in *; try done; rewrite ?orb_true_iff; naive_solver.
Qed.
Lemma existsb_pad n items : existsb b_list (pad n items) = existsb b_list items.
Proof.
  unfold pad. rewrite existsb_app. generalize (n - length items). intros k.
  replace (existsb b_list (replicate k (ISlice slice_all))) with false; [by rewrite orb_false_r|].
  induction k; [done|]. simpl. done.
Qed.
Lemma forallb_ints items : forallb b_int items = true <-> Forall is_int items.
Proof.
  induction items as [|it items IH]; simpl; [split; [constructor|done]|].
  rewrite andb_true_iff, IH, Forall_cons. destruct it; simpl; naive_solver.
Qed.
Lemma ints_sel_labels L its rs ss :
  Forall2 same_kind its rs -> sels L rs ss -> Forall is_int its <-> sel_labels ss = [].
Proof.
  intros Hk Hs. revert its Hk. induction Hs as [|l r s L rs ss Hs H IH]; intros its Hk; inversion Hk as [|it ? its' ? Hk1 Hk2]; subst.
  { split; [done|constructor]. }
  rewrite Forall_cons, (IH its') by done.
  destruct r as [p|ps|ps]; simpl in *; apply bind_Some in Hs as (x & _ & [= <-]); simpl; [naive_solver|..];
    (split; [intros [? _]; by destruct it|done]).
Qed.
Lemma sel_labels_length L rs ss : sels L rs ss -> length (sel_labels ss) = length (slice_lens rs) + length (list_lens rs).
Proof.
  intros Hs. pose proof (sels_shape _ _ _ Hs) as Hsh. apply (f_equal length) in Hsh. rewrite fmap_length in Hsh. rewrite Hsh.
  clear. induction rs as [|[p|ps|ps] rs IH]; simpl; [done|exact IH| |].
  - change (S (length (omap r_len rs)) = S (length (slice_lens rs)) + length (list_lens rs)). lia.
  - change (S (length (omap r_len rs)) = length (slice_lens rs) + S (length (list_lens rs))). lia.
Qed.
Lemma insert_at_len {A} p (x : A) l : length (insert_at p x l) = S (length l).
Proof. unfold insert_at. rewrite app_length, take_length. simpl. rewrite drop_length. lia. Qed.

Lemma one_list_lens items rs : Forall2 same_kind items rs -> one_list items -> length (list_lens rs) <= 1.
Proof.
  induction 1 as [|it r items rs Hk H IH]; intros H1; simpl; [lia|].
  assert (Ht : one_list items).
  { intros i j a b Ha Hb Hla Hlb. by injection (H1 (S i) (S j) a b Ha Hb Hla Hlb). }
  destruct r as [p|ps|ps]; simpl; [by apply IH..|].
  destruct (decide (list_lens rs = [])) as [->|Hne]; [simpl; lia|]. exfalso.
  assert (exists j b, items !! j = Some b /\ is_list b) as (j & b & Hb & Hlb).
  { clear -H Hne. induction H as [|it' r' items rs Hk' H IH]; [done|]. destruct r'; simpl in *.
    - destruct (IH Hne) as (j & b & ? & ?). by exists (S j), b.
    - destruct (IH Hne) as (j & b & ? & ?). by exists (S j), b.
    - by exists 0, it'. }
  by pose proof (H1 0 (S j) it b eq_refl Hb Hk Hlb).
Qed.
Lemma pad_one_list n items : one_list items -> one_list (pad n items).
Proof.
  intros H i j a b Ha Hb Hla Hlb.
  apply (H i j a b); try done; (eapply pad_nonslice; [done|]); [destruct a|destruct b]; simpl in *; tauto.
Qed.

(** * Tuples *)
Lemma np_getitem_select {A} (a : arr A) items b :
  np_getitem a items = Ok b -> exists q, np_select (shape a) items = Ok q /\ shape b = q.1.
Proof.
  unfold np_getitem. intros (q & Hq & Hb)%bind_ok. exists q. split; [done|]. apply of_opt_ok in Hb.
  by apply gather_Some in Hb as (? & _).
Qed.

Lemma getitem_tuple_sound y items g :
  valid y -> Forall item_ok items -> joined items \/ list_first items ->
  (Forall is_int items -> length items = length (llabel y)) ->
  larry_getitem y (XTuple items) = Ok g ->
  exists ss, selects_all (llabel y) items ss /\ picked y ss g.
Proof.
  intros Hv Hok Hj Hc H. cbn [larry_getitem] in H. apply bind_ok in H as (label & Hl & H). apply bind_ok in H as (b & Hb & H).
  destruct (np_getitem_select _ _ _ Hb) as (q & Hq & Hsq).
  apply np_select_inv in Hq as (Hlen & rs & Hr & Hcase).
  change (shape (larr y)) with (lshape y) in *. change (length (lshape y)) with (lndim y) in Hlen.
  apply tuple_label_ok in Hl as (os & Hos & ->); [|done|done].
  pose proof Hr as Hr'. unfold resolved in Hr'. rewrite <-(valid_shape y Hv) in Hr' at 1. change (length (lshape y)) with (lndim y) in Hr'.
  destruct (items_sound _ _ _ _ (pad_ok (lndim y) items Hok) Hos Hr') as (ss & Hss & Hsel & ->).
  rewrite somes_sel_opt in H.
  assert (Hsa : selects_all (llabel y) items ss).
  { split; [by rewrite valid_ndim|]. by rewrite valid_ndim. }
  exists ss. split; [done|].
  pose proof (resolved_kind _ _ _ Hr) as Hk. change (length (lshape y)) with (lndim y) in Hk.
  pose proof (sel_labels_length _ _ _ Hsel) as Hsl.
  (* at most one list *)
  assert (H1 : length (list_lens rs) <= 1 \/ exists label, exists z, existsb b_list items = true /\ forallb b_int items = false /\ make (Nda (ldtype y) b) (Some label) = Ok z /\ label = sel_labels ss).
  { destruct Hcase as [[-> _]|[Hne _]]; [left; simpl; lia|]. right.
    apply (kinds_lists _ _ Hk) in Hne. rewrite existsb_pad in Hne.
    assert (Hai : forallb b_int items = false).
    { clear -Hne. induction items as [|it items IH]; [done|]. simpl in *. destruct it; simpl in *; auto. }
    rewrite Hai, Hne in H. cbn [new_larry] in H. apply bind_ok in H as (z & Hz & _). eauto 10. }
  assert (H1' : length (list_lens rs) <= 1).
  { destruct H1 as [?|(label & z & He & _ & Hz & ->)]; [done|]. apply make_some_ok in Hz as (_ & _ & Hsz & _).
    destruct Hcase as [[-> _]|[Hne (n & Hn & Hqe)]]; [simpl; lia|].
    apply (f_equal length) in Hsz. rewrite fmap_length in Hsz. unfold nd_shape in Hsz. simpl in Hsz.
    rewrite Hsq, Hqe in Hsz. simpl in Hsz. rewrite insert_at_len in Hsz. lia. }
  assert (Hpl : list_lens rs <> [] -> placed rs).
  { intros Hne. destruct (list_lens rs) as [|n [|]] eqn:El; [done| |simpl in H1'; lia]. by eapply layout_placed. }
  destruct (select_get y items rs ss Hv Hlen Hr Hsel H1' Hpl) as (b' & Hb' & Hsb & Hres & Hval).
  rewrite Hb in Hb'. injection Hb' as <-.
  destruct (forallb b_int items) eqn:Hai.
  - apply forallb_ints in Hai. specialize (Hc Hai).
    assert (sel_labels ss = []) as Hnil.
    { apply (ints_sel_labels _ _ _ _ Hk Hsel). unfold pad. rewrite <-valid_ndim, Hc, Nat.sub_diag by done. simpl. by rewrite app_nil_r. }
    rewrite Hsb, Hnil in H. simpl in H. destruct (Hval Hnil) as (v & full & Hf & Hcl & Hg).
    rewrite Hg in H. simpl in H. injection H as <-. simpl. split; [done|]. eauto.
  - apply bind_ok in H as (z & Hz & [= <-]). simpl.
    assert (Hne : sel_labels ss <> []).
    { intros Hnil. apply (ints_sel_labels _ _ _ _ Hk Hsel) in Hnil. unfold pad in Hnil.
      apply Forall_app in Hnil as [Hi _]. apply forallb_ints in Hi. congruence. }
    unfold new_larry in Hz. destruct (existsb b_list items) eqn:Hel.
    + apply make_some_ok in Hz as (-> & _ & _ & HN). by apply Hres.
    + injection Hz as <-. apply Hres; [done|]. eapply sels_nodup; [by apply valid_nodup| |exact Hsel|].
      * rewrite valid_shape by done. exact Hr.
      * destruct (decide (list_lens rs = [])) as [?|Hne']; [done|].
        apply (kinds_lists _ _ Hk) in Hne'. rewrite existsb_pad in Hne'. congruence.
Qed.

Lemma getitem_tuple_complete y items ss :
  valid y -> Forall item_ok items -> joined items \/ list_first items -> one_list items ->
  (Forall is_int items -> length items = length (llabel y)) ->
  selects_all (llabel y) items ss -> Forall NoDup (sel_labels ss) ->
  exists g, larry_getitem y (XTuple items) = Ok g /\ picked y ss g.
Proof.
  intros Hv Hok Hj H1 Hc [Hlen Hss] HN. rewrite valid_ndim in Hlen by done. rewrite (valid_ndim y Hv) in Hss.
  change (items ++ replicate (lndim y - length items) (ISlice slice_all)) with (pad (lndim y) items) in Hss.
  destruct (items_complete _ _ _ (pad_ok (lndim y) items Hok) Hss) as (rs & Hr' & Hsel & Hos).
  assert (Hr : resolved (lshape y) items rs).
  { unfold resolved. rewrite <-(valid_shape y Hv) at 1. exact Hr'. }
  pose proof (resolved_kind _ _ _ Hr) as Hk. change (length (lshape y)) with (lndim y) in Hk.
  assert (H1' : length (list_lens rs) <= 1) by (eapply one_list_lens; [exact Hk|]; by apply pad_one_list).
  assert (Hpl : list_lens rs <> [] -> placed rs).
  { intros Hne. destruct (list_lens rs) as [|n [|]] eqn:El; [done| |simpl in H1'; lia]. by eapply layout_placed. }
  destruct (select_get y items rs ss Hv Hlen Hr Hsel H1' Hpl) as (b & Hb & Hsb & Hres & Hval).
  cbn [larry_getitem]. assert (tuple_label y items = Ok (sel_labels ss)) as ->.
  { apply tuple_label_ok; [done|done|]. eexists. split; [exact Hos|]. by rewrite somes_sel_opt. }
  simpl. rewrite Hb. simpl. destruct (forallb b_int items) eqn:Hai.
  - apply forallb_ints in Hai. specialize (Hc Hai).
    assert (sel_labels ss = []) as Hnil.
    { apply (ints_sel_labels _ _ _ _ Hk Hsel). unfold pad. rewrite <-valid_ndim, Hc, Nat.sub_diag by done. simpl. by rewrite app_nil_r. }
    rewrite Hsb, Hnil. simpl. destruct (Hval Hnil) as (v & full & Hf & Hcl & Hg).
    rewrite Hg. simpl. eexists. split; [done|]. simpl. eauto.
  - assert (Hne : sel_labels ss <> []).
    { intros Hnil. apply (ints_sel_labels _ _ _ _ Hk Hsel) in Hnil. unfold pad in Hnil.
      apply Forall_app in Hnil as [Hi _]. apply forallb_ints in Hi. congruence. }
    specialize (Hres Hne HN). exists (GLar (Larry (Nda (ldtype y) b) (sel_labels ss))). split; [|exact Hres].
    unfold new_larry. destruct (existsb b_list items); [|done].
    assert (make (Nda (ldtype y) b) (Some (sel_labels ss)) = Ok (Larry (Nda (ldtype y) b) (sel_labels ss))) as ->; [|done].
    apply make_some_ok. split_and!; try done.
Qed.

(** * An index for the first axis *)
Lemma sel_labels_among (L : list (list lab)) : sel_labels (Among <$> L) = L.
Proof. induction L as [|l L IH]; [done|]. unfold sel_labels in *. simpl. f_equal. exact IH. Qed.
Lemma sel_full_among (L : list (list lab)) ls : length ls = length L -> sel_full (Among <$> L) ls = Some ls.
Proof. revert ls. induction L as [|l L IH]; intros [|x ls] H; try done. simpl. rewrite IH; [done|]. by injection H. Qed.
Lemma selects_whole (L : list (list lab)) : Forall3 selects L (replicate (length L) (ISlice slice_all)) (Among <$> L).
Proof. induction L as [|l L IH]; simpl; constructor; [|exact IH]. simpl. apply py_slice_all. Qed.

Definition whole (L : list (list lab)) : list ritem := (fun l => RSlice (seq 0 (length l))) <$> L.
Lemma resolved_whole (L : list (list lab)) :
  Forall3 (fun n it r => resolve n it = Ok r) (length <$> L) (replicate (length L) (ISlice slice_all)) (whole L).
Proof. induction L as [|l L IH]; simpl; constructor; [|exact IH]. unfold resolve. by rewrite slice_positions_all. Qed.
Lemma sels_whole (L : list (list lab)) : sels L (whole L) (Among <$> L).
Proof.
  unfold sels. induction L as [|l L IH]; simpl; constructor; [|exact IH]. simpl.
  rewrite mapM_seq_take by lia. simpl. by rewrite firstn_all.
Qed.
Lemma whole_no_list L : list_lens (whole L) = [].
Proof. induction L as [|l L IH]; [done|]. exact IH. Qed.

Lemma selects_single l L it s : selects l it s -> selects_all (l :: L) [it] (s :: (Among <$> L)).
Proof.
  intros H. split; [simpl; lia|]. simpl. constructor; [done|]. rewrite Nat.sub_0_r. apply selects_whole.
Qed.
Lemma selects_single_inv l L it ss :
  selects_all (l :: L) [it] ss -> exists s, ss = s :: (Among <$> L) /\ selects l it s.
Proof.
  intros [_ H]. simpl in H. rewrite Nat.sub_0_r in H. inversion H as [|? ? s ? ? ss' Hs H2]; subst. exists s. split; [|done]. f_equal.
  clear -H2. revert ss' H2. induction L as [|l L IH]; intros ss' H2; simpl in *; inversion H2 as [|? ? s ? ? ss2 Hs H3]; subst; [done|].
  f_equal; [|by apply IH]. destruct s as [x|l']; [done|]. simpl in Hs. rewrite py_slice_all in Hs. by injection Hs as ->.
Qed.

Lemma single_get y l L it r s :
  valid y -> llabel y = l :: L -> resolve (length l) it = Ok r -> sel_of l r = Some s ->
  let ss := s :: (Among <$> L) in
  exists b, np_getitem (larr y) [it] = Ok b /\ shape b = length <$> sel_labels ss /\
    (sel_labels ss <> [] -> Forall NoDup (sel_labels ss) -> restricted y ss (Larry (Nda (ldtype y) b) (sel_labels ss))) /\
    (sel_labels ss = [] -> exists v full, sel_full ss [] = Some full /\ cell y full = Some v /\ aget b [] = Some v).
Proof.
  intros Hv Hl Hr Hs ss. apply (select_get y [it] (r :: whole L)); [done| | | | |].
  - rewrite <-valid_ndim, Hl by done. simpl. lia.
  - unfold resolved. rewrite <-(valid_shape y Hv), Hl, fmap_length. unfold pad. simpl. constructor; [done|].
    rewrite Nat.sub_0_r. apply resolved_whole.
  - rewrite Hl. constructor; [done|]. apply sels_whole.
  - destruct r; simpl; rewrite (whole_no_list L); simpl; lia.
  - intros Hne. assert (exists n, list_lens (r :: whole L) = [n]) as [n Hn].
    { destruct r as [p|ps|ps]; [by rewrite (whole_no_list L : list_lens (RInt p :: whole L) = []) in Hne|
        by rewrite (whole_no_list L : list_lens (RSlice ps :: whole L) = []) in Hne|].
      exists (length ps). change (length ps :: list_lens (whole L) = [length ps]). by rewrite whole_no_list. }
    eapply (layout_placed (lshape y) [it]); [| |exact Hn].
    + unfold resolved. rewrite <-(valid_shape y Hv), Hl, fmap_length. unfold pad. simpl. constructor; [done|].
      rewrite Nat.sub_0_r. apply resolved_whole.
    + right. intros i j a b Hij Ha Hb. destruct j as [|j]; [lia|]. done.
Qed.

Lemma sel_labels_cons_among l' (L : list (list lab)) : sel_labels (Among l' :: (Among <$> L)) = l' :: L.
Proof. exact (sel_labels_among (l' :: L)). Qed.
Lemma sel_labels_cons_at x (L : list (list lab)) : sel_labels (At x :: (Among <$> L)) = L.
Proof. exact (sel_labels_among L). Qed.

(** What the forms for the first axis compute. *)
Lemma getitem_first y l L ix it s :
  valid y -> llabel y = l :: L -> index_items ix = [it] -> (forall items, ix <> XTuple items) -> item_ok it ->
  selects l it s -> Forall NoDup (sel_labels (s :: (Among <$> L))) ->
  exists g, larry_getitem y ix = Ok g /\ picked y (s :: (Among <$> L)) g.
Proof.
  intros Hv Hl Hix Hnt Hok Hs HN. destruct (item_complete l it s Hok Hs) as (r & Hr & Hso & Hil).
  destruct (single_get y l L it r s Hv Hl Hr Hso) as (b & Hb & Hsb & Hres & Hval).
  assert (Hax : axis_label y 0 = Ok l) by (apply axis_label_ok; by rewrite Hl).
  assert (Hsh : lshape y !! 0 = Some (length l)) by (rewrite <-valid_shape, Hl by done; done).
  pose proof (valid_ndim y Hv) as Hnd. rewrite Hl in Hnd. simpl in Hnd.
  destruct ix as [z|sl|zs|bs|m|items]; simpl in Hix; [injection Hix as <-..|by destruct (Hnt items)].
  - destruct s as [x|]; [|done]. simpl in Hil. cbn [larry_getitem]. rewrite Hsh. simpl.
    destruct (decide (Z.of_nat (length l) <= z)%Z) as [|_]; [done|]. rewrite Hb. simpl.
    rewrite sel_labels_cons_at in *. destruct (decide (lndim y <= 1)) as [H1|H1].
    + assert (L = []) as -> by (destruct L; [done|simpl in *; lia]). destruct (Hval eq_refl) as (v & full & Hf & Hc & Hg).
      rewrite Hg. simpl. eexists. split; [done|]. simpl. eauto.
    + rewrite Hl. simpl. eexists. split; [done|]. simpl. apply Hres; [|done]. intros ->. simpl in *. lia.
  - destruct s as [|l']; [done|]. simpl in Hs. cbn [larry_getitem]. rewrite Hax. simpl. rewrite Hs. simpl. rewrite Hb. simpl.
    rewrite Hl. simpl. rewrite sel_labels_cons_among in *. eexists. split; [done|]. simpl. by apply Hres.
  - destruct s as [|l']; [done|]. rewrite sel_labels_cons_among in *. simpl in Hil. apply bind_ok in Hil as (l2 & Hl2 & [= ->]).
    cbn [larry_getitem]. rewrite Hax. simpl. rewrite Hl2. simpl. apply of_opt_ok in Hl2.
    apply Forall_cons in HN as [Hn1 HN]. assert (py_nodup l' = true) as -> by (by apply py_nodup_spec).
    unfold py_get in Hl2. rewrite mapM_bind in Hl2. apply bind_Some in Hl2 as (ps & Hps & Hm).
    unfold np_take. rewrite (valid_axis_len y 0 l Hv) by (by rewrite Hl). simpl. rewrite Hps. simpl.
    assert (is_Some (take_pos (larr y) ps 0)) as [b' Hb'].
    { apply take_pos_is_Some; [by apply valid_wf|]. exists (length l). split; [exact Hsh|]. by eapply mapM_lt_inv. }
    rewrite Hb'. simpl. eexists. split; [done|].
    destruct (select_axis y 0 l ps b' l' Hv ltac:(by rewrite Hl) Hb' Hm Hn1) as [Hvz Hc]. rewrite Hl in *. simpl in *.
    split; [exact Hvz|]. split; [done|]. split; [by rewrite sel_labels_cons_among|]. intros ls Hls. simpl in Hls.
    exists ls. split.
    + apply (sel_full_among (l' :: L)). by apply in_grid_length in Hls.
    + apply (valid_cell_grid _ _ Hvz) in Hls. destruct Hls as [v Hlsv]. rewrite Hlsv. symmetry. by apply Hc.
  - destruct s as [|l']; [done|]. rewrite sel_labels_cons_among in *. simpl in Hil. apply bind_ok in Hil as (l2 & Hl2 & [= ->]).
    cbn [larry_getitem]. rewrite Hax. simpl. rewrite Hl2. simpl. rewrite Hb. simpl. rewrite Hl. simpl.
    eexists. split; [done|]. simpl. by apply Hres.
  - destruct s as [|l']; [done|]. rewrite sel_labels_cons_among in *. cbn [larry_getitem].
    simpl in Hil. destruct (decide (ldtype m <> DBool)) as [|_]; [done|]. destruct (decide (lndim m <> 1)) as [|_]; [done|].
    destruct (decide (llabel m !! 0 <> Some l)) as [|Hml]; [done|]. apply dec_stable in Hml.
    rewrite decide_False by (rewrite Hl, Hml; simpl; by intros []). rewrite Hax. simpl.
    apply bind_ok in Hil as (l2 & Hl2 & [= ->]). rewrite Hl2. simpl. rewrite Hb. simpl. rewrite Hl. simpl.
    assert (make (Nda (ldtype y) b) (Some (l' :: L)) = Ok (Larry (Nda (ldtype y) b) (l' :: L))) as ->.
    { apply make_some_ok. split_and!; try done. }
    simpl. eexists. split; [done|]. simpl. by apply Hres.
Qed.

Lemma getitem_complete y ix ss :
  valid y -> Forall item_ok (index_items ix) -> joined (index_items ix) \/ list_first (index_items ix) ->
  one_list (index_items ix) -> complete y ix ->
  selects_all (llabel y) (index_items ix) ss -> Forall NoDup (sel_labels ss) ->
  exists g, larry_getitem y ix = Ok g /\ picked y ss g.
Proof.
  intros Hv Hok Hj H1 Hc Hs HN. assert (Hcase : (exists items, ix = XTuple items) \/ ~ exists items, ix = XTuple items)
    by (destruct ix; try (right; by intros [? [=]]); left; eauto).
  destruct Hcase as [[items ->]|Hnt].
  { by apply getitem_tuple_complete. }
  assert (Hne : llabel y <> []) by (by destruct Hv as (_ & ? & _)). destruct (llabel y) as [|l L] eqn:Hl; [done|].
  assert (exists it, index_items ix = [it]) as [it Hit] by (destruct ix; simpl; eauto; destruct Hnt; eauto).
  rewrite Hit in *. apply selects_single_inv in Hs as (s & -> & Hs). apply (Forall_singleton item_ok) in Hok.
  assert (Hnt' : forall items, ix <> XTuple items) by (intros items ->; apply Hnt; eauto).
  exact (getitem_first y l L ix it s Hv Hl Hit Hnt' Hok Hs HN).
Qed.

Lemma np_getitem_resolve y l L it b :
  valid y -> llabel y = l :: L -> np_getitem (larr y) [it] = Ok b -> exists r, resolve (length l) it = Ok r.
Proof.
  intros Hv Hl Hb. destruct (np_getitem_select _ _ _ Hb) as (q & Hq & _). apply np_select_inv in Hq as (_ & rs & Hr & _).
  unfold resolved in Hr. change (shape (larr y)) with (lshape y) in Hr. rewrite <-(valid_shape y Hv), Hl in Hr. simpl in Hr.
  inversion Hr; subst. eauto.
Qed.
Lemma true_positions_nodup (l l' : list lab) bs : NoDup l -> mapM (l !!.) (true_positions bs) = Some l' -> NoDup l'.
Proof. intros Hn Hm. apply (mapM_index_inj l _ l' Hn Hm). apply NoDup_true_from. Qed.

Lemma getitem_first_sound y l L ix it g :
  valid y -> llabel y = l :: L -> index_items ix = [it] -> (forall items, ix <> XTuple items) -> item_ok it ->
  larry_getitem y ix = Ok g ->
  exists s, selects l it s /\ Forall NoDup (sel_labels (s :: (Among <$> L))).
Proof.
  intros Hv Hl Hix Hnt Hok H.
  assert (HNL : Forall NoDup (l :: L)) by (rewrite <-Hl; by apply valid_nodup). apply Forall_cons in HNL as [Hnl HNL].
  assert (Hax : axis_label y 0 = Ok l) by (apply axis_label_ok; by rewrite Hl).
  assert (Hsh : lshape y !! 0 = Some (length l)) by (rewrite <-valid_shape, Hl by done; done).
  assert (Hgoal : forall o r, item_label (length l) l it = Ok o -> resolve (length l) it = Ok r ->
    (forall l', o = Some l' -> NoDup l') -> exists s, selects l it s /\ Forall NoDup (sel_labels (s :: (Among <$> L)))).
  { intros o r Ho Hr Hn. destruct (item_sound l it o r Hok Ho Hr) as (s & Hs & _ & ->). exists s. split; [done|].
    destruct s as [x|l']; [by rewrite sel_labels_cons_at|]. rewrite sel_labels_cons_among. constructor; [by apply Hn|done]. }
  destruct ix as [z|sl|zs|bs|m|items]; simpl in Hix; [injection Hix as <-..|by destruct (Hnt items)]; cbn [larry_getitem] in H.
  - rewrite Hsh in H. simpl in H. destruct (decide (Z.of_nat (length l) <= z)%Z) as [|Hz]; [done|].
    apply bind_ok in H as (b & Hb & _). destruct (np_getitem_resolve y l L _ b Hv Hl Hb) as [r Hr].
    apply (Hgoal None r); [|done|done]. simpl. by rewrite decide_False.
  - rewrite Hax in H. simpl in H. apply bind_ok in H as (l' & Hl' & H). apply bind_ok in H as (b & Hb & _).
    destruct (np_getitem_resolve y l L _ b Hv Hl Hb) as [r Hr]. apply (Hgoal (Some l') r); [|done|].
    { simpl. by rewrite Hl'. }
    intros ? [= <-]. apply py_slice_Ok in Hl' as (ps & Hps & Hm). apply (mapM_index_inj l ps l' Hnl Hm).
    by apply slice_positions_ok in Hps as [_ ?].
  - rewrite Hax in H. simpl in H. apply bind_ok in H as (l' & Hl' & H). destruct (py_nodup l') eqn:En; [|done].
    apply py_nodup_spec in En. pose proof Hl' as Hl2. apply of_opt_ok in Hl2.
    unfold py_get in Hl2. rewrite mapM_bind in Hl2. apply bind_Some in Hl2 as (ps & Hps & Hm).
    apply (Hgoal (Some l') (RList ps)); [|simpl; by rewrite Hps|by intros ? [= <-]]. unfold item_label. by rewrite Hl'.
  - rewrite Hax in H. simpl in H. apply bind_ok in H as (l' & Hl' & H). apply bind_ok in H as (b & Hb & _).
    destruct (np_getitem_resolve y l L _ b Hv Hl Hb) as [r Hr]. apply (Hgoal (Some l') r); [|done|].
    { simpl. by rewrite Hl'. }
    intros ? [= <-]. apply of_opt_ok in Hl'. by eapply true_positions_nodup.
  - destruct (decide (ldtype m <> DBool)) as [|Hd]; [done|]. destruct (decide (lndim m <> 1)) as [|Hn]; [done|].
    destruct (decide (llabel y !! 0 <> llabel m !! 0)) as [|Hml]; [done|]. apply dec_stable in Hml.
    rewrite Hax in H. simpl in H. apply bind_ok in H as (l' & Hl' & H). apply bind_ok in H as (b & Hb & _).
    destruct (np_getitem_resolve y l L _ b Hv Hl Hb) as [r Hr]. apply (Hgoal (Some l') r); [|done|].
    { simpl. rewrite decide_False by done. rewrite decide_False by done. rewrite decide_False; [by rewrite Hl'|].
      rewrite <-Hml, Hl. simpl. by intros []. }
    intros ? [= <-]. apply of_opt_ok in Hl'. by eapply true_positions_nodup.
Qed.

Lemma getitem_sound y ix g :
  valid y -> Forall item_ok (index_items ix) -> joined (index_items ix) \/ list_first (index_items ix) ->
  complete y ix -> larry_getitem y ix = Ok g ->
  exists ss, selects_all (llabel y) (index_items ix) ss /\ picked y ss g.
Proof.
  intros Hv Hok Hj Hc H.
  assert (Hcase : (exists items, ix = XTuple items) \/ ~ exists items, ix = XTuple items)
    by (destruct ix; try (right; by intros [? [=]]); left; eauto).
  destruct Hcase as [[items ->]|Hnt]. { by apply getitem_tuple_sound. }
  assert (Hne : llabel y <> []) by (by destruct Hv as (_ & ? & _)). destruct (llabel y) as [|l L] eqn:Hl; [done|].
  assert (exists it, index_items ix = [it]) as [it Hit] by (destruct ix; simpl; eauto; destruct Hnt; eauto).
  rewrite Hit in *. apply (Forall_singleton item_ok) in Hok.
  assert (Hnt' : forall items, ix <> XTuple items) by (intros items ->; apply Hnt; eauto).
  destruct (getitem_first_sound y l L ix it g Hv Hl Hit Hnt' Hok H) as (s & Hs & HN).
  destruct (getitem_first y l L ix it s Hv Hl Hit Hnt' Hok Hs HN) as (g' & Hg' & Hp).
  assert (g' = g) as -> by congruence. eexists. split; [by apply selects_single|done].
Qed.
