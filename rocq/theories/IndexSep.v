(** Tuples of integers and lists separated by slices, and short tuples of
    integers. *)
From Verif Require Export IndexGet.

Lemma adv_then_joined items rs :
  Forall2 same_kind items rs -> adv_then_slices rs = true ->
  forall j k b c, j < k -> items !! j = Some b -> items !! k = Some c -> ~ is_slice c -> ~ is_slice b.
Proof.
  intros H. induction H as [|it r items rs Hk H IH]; intros Ha j k b c Hjk Hb Hc Hn; [done|].
  simpl in Ha. destruct k as [|k]; [lia|]. simpl in Hc.
  destruct j as [|j].
  - simpl in Hb. injection Hb as ->. destruct r as [p|ps|ps]; simpl in Ha; try (destruct b; simpl in *; tauto).
    exfalso. clear IH Hk Hjk. revert k Hc. induction H as [|it' r' items rs Hk' H IH]; intros k Hc; [done|].
    simpl in Ha. destruct r' as [p'|ps'|ps']; simpl in Ha; try done. destruct k as [|k]; simpl in Hc; [|by eapply IH].
    injection Hc as ->. destruct c; simpl in *; tauto.
  - simpl in Hb. destruct r as [p|ps|ps]; simpl in Ha; [eapply (IH Ha j k); eauto; lia| |eapply (IH Ha j k); eauto; lia].
    exfalso. clear IH. revert j k Hc Hjk Hb. induction H as [|it' r' items rs Hk' H IH]; intros j k Hc Hjk Hb; [done|].
    simpl in Ha. destruct r' as [p'|ps'|ps']; simpl in Ha; try done.
    destruct k as [|k]; [lia|]. simpl in Hc.
    destruct j as [|j]; [|simpl in Hb; eapply (IH Ha j k); eauto; lia].
    clear IH Hb Hjk Hk'. revert k Hc. induction H as [|it2 r2 items rs Hk2 H IH]; intros k Hc; [done|].
    simpl in Ha. destruct r2 as [p2|ps2|ps2]; simpl in Ha; try done. destruct k as [|k]; simpl in Hc; [|by eapply IH].
    injection Hc as ->. destruct c; simpl in *; tauto.
Qed.
Lemma adjacent_joined items rs : Forall2 same_kind items rs -> adjacent rs = true -> joined items.
Proof.
  intros H. induction H as [|it r items rs Hk H IH]; intros Ha i j k a b c Hijk Hia Hjb Hkc Hna Hnc; [done|].
  simpl in Ha. destruct i as [|i].
  - simpl in Hia. injection Hia as ->.
    assert (Hav : adv_then_slices rs = true) by (destruct r; simpl in *; try done; by destruct a).
    destruct j as [|j]; [lia|]. destruct k as [|k]; [lia|]. simpl in Hjb, Hkc.
    eapply (adv_then_joined items rs H Hav j k); eauto; lia.
  - destruct j as [|j]; [lia|]. destruct k as [|k]; [lia|]. simpl in Hia, Hjb, Hkc.
    destruct r as [p|ps|ps]; simpl in Ha; [|eapply (IH Ha i j k); eauto; lia|];
      eapply (adv_then_joined items rs H Ha j k); eauto; lia.
Qed.
Lemma joined_pad_inv n items : joined (pad n items) -> joined items.
Proof.
  intros H i j k a b c Hijk Ha Hb Hc. unfold joined, pad in H.
  apply (H i j k a b c Hijk); rewrite lookup_app_l; try done; by eapply lookup_lt_Some.
Qed.

(** The number of slices before the list is the place of the list. *)
Lemma list_place_slices items rs n :
  Forall2 same_kind items rs -> list_lens rs = [n] -> list_after items (list_place rs).
Proof.
  intros H. induction H as [|it0 r items rs Hk H IH]; intros Hn; [done|].
  destruct r as [p|ps|ps]; simpl in Hk, Hn |- *.
  - destruct (IH Hn) as (before & it & after & -> & Hl & Hs). exists (it0 :: before), it, after. split_and!; try done.
    by destruct it0.
  - destruct (IH Hn) as (before & it & after & -> & Hl & Hs). exists (it0 :: before), it, after. split_and!; try done.
    destruct it0; simpl in Hk; try done. simpl. by f_equal.
  - by exists [], it0, items.
Qed.
Lemma list_after_pad n items p : list_after (pad n items) p -> list_after items p.
Proof.
  unfold pad. intros (before & it & after & He & Hl & Hs).
  destruct (decide (length before < length items)) as [Hlt|Hge].
  - exists before, it, (drop (S (length before)) items). split; [|done].
    assert (Hb : before = take (length before) items).
    { apply (f_equal (take (length before))) in He. rewrite take_app, take_app_le in He by lia. by rewrite He. }
    assert (Hi : items !! length before = Some it).
    { rewrite <-(lookup_app_l items (replicate (n - length items) (ISlice slice_all))) by done. rewrite He.
      by rewrite list_lookup_middle. }
    transitivity (take (length before) items ++ it :: drop (S (length before)) items); [|by rewrite <-Hb].
    symmetry. by apply take_drop_middle.
  - exfalso. assert (Hi : (items ++ replicate (n - length items) (ISlice slice_all)) !! length before = Some it).
    { rewrite He. by rewrite list_lookup_middle. }
    rewrite lookup_app_r in Hi by lia. apply lookup_replicate in Hi as [-> _]. done.
Qed.
Lemma one_list_after items p q : one_list items -> list_after items p -> list_after items q -> p = q.
Proof.
  intros H1 (b & i & a & -> & Hi & <-) (b' & i' & a' & He & Hi' & <-).
  assert (length b = length b') as Hl.
  { apply (H1 (length b) (length b') i i'); [by rewrite list_lookup_middle|rewrite He; by rewrite list_lookup_middle|done|done]. }
  apply app_inj_1 in He as [-> _]; done.
Qed.

Lemma separated_get y items rs ss n :
  valid y -> length items <= lndim y -> resolved (lshape y) items rs -> sels (llabel y) rs ss ->
  list_lens rs = [n] -> adjacent rs = false ->
  exists b, np_getitem (larr y) items = Ok b /\ shape b = n :: slice_lens rs /\ nda_wf (Nda (ldtype y) b) /\
    forall k sl, in_range (shape b) (k :: sl) ->
      exists ls full, labels_at (sel_labels ss) (insert_at (list_place rs) k sl) ls /\ sel_full ss ls = Some full /\
        aget b (k :: sl) = cell y full.
Proof.
  intros Hv Hlen Hr Hs Hn Ha. unfold np_getitem. change (shape (larr y)) with (lshape y).
  rewrite (np_select_resolved (lshape y) items rs Hlen Hr), Hn, Ha, broadcast_one. cbn [mbind res_bind].
  set (m := fun idx : list nat => _). cbn [fst snd].
  pose proof (sels_shape _ _ _ Hs) as Hsh. rewrite (one_list_shape rs n Hn) in Hsh.
  pose proof (list_place_le rs n Hn) as Hple.
  assert (Hmap : forall k sl, in_range (n :: slice_lens rs) (k :: sl) ->
    exists ls full idx0, labels_at (sel_labels ss) (insert_at (list_place rs) k sl) ls /\ sel_full ss ls = Some full /\
      m (k :: sl) = Some idx0 /\ labels_at (llabel y) idx0 full).
  { intros k sl Hin. inversion Hin as [|? ? ? ? Hk Hin']; subst.
    assert (Hr2 : in_range (length <$> sel_labels ss) (insert_at (list_place rs) k sl)).
    { rewrite Hsh. unfold insert_at. apply Forall2_app; [by apply Forall2_take|].
      constructor; [done|]. by apply Forall2_drop. }
    destruct (labels_at_exists _ _ Hr2) as [ls Hls].
    destruct (weave_in_labels _ _ _ _ _ Hs Hls) as (idx0 & full & Hw & Hf & Hla).
    exists ls, full, idx0. split_and!; try done. unfold m. simpl.
    rewrite (weave_one_list rs n); [exact Hw|done|done|]. by apply in_range_length in Hin'. }
  change (insert_at 0 n (slice_lens rs)) with (n :: slice_lens rs).
  assert (is_Some (gather (larr y) (n :: slice_lens rs) m)) as [b Hb].
  { apply gather_is_Some. intros [|k sl] Hin; [inversion Hin|].
    destruct (Hmap k sl Hin) as (ls & full & idx0 & Hls & Hf & Hm & Hla). rewrite Hm. simpl.
    destruct (valid_cell_at y _ _ Hv Hla) as (v & -> & _). by eexists. }
  rewrite Hb. exists b. split; [done|].
  assert (nda_wf (Nda (ldtype y) b)) as Hwf.
  { eapply gather_nda_wf; [|exact Hb]. destruct Hv as [Hv' _]. unfold ldtype, larr. by destruct (lx y). }
  apply gather_Some in Hb as (Hsb & Hwb & Hgb). split_and!; [done..|].
  intros k sl Hin. rewrite Hsb in Hin. destruct (Hmap k sl Hin) as (ls & full & idx0 & Hls & Hf & Hm & Hla).
  exists ls, full. split_and!; try done. rewrite (Hgb _ Hin), Hm. simpl.
  destruct (valid_cell_at y _ _ Hv Hla) as (v & -> & ->). done.
Qed.

(** Two equal lengths that differ by the place of one element. *)
Lemma turn_same {A} (x : A) p l : p <= length l -> x :: l = insert_at p x l <-> Forall (eq x) (take p l).
Proof.
  revert l. induction p as [|p IH]; intros l Hp; [unfold insert_at; simpl; split; [constructor|by rewrite drop_0]|].
  destruct l as [|a l]; [simpl in Hp; lia|]. unfold insert_at in *. simpl in *. rewrite Forall_cons. split.
  - intros [= <- H]. split; [done|]. apply IH; [lia|done].
  - intros [<- H]. f_equal. apply IH; [lia|done].
Qed.
Lemma turn_lengths (L : list (list lab)) n p sl :
  p <= length sl -> length <$> L = insert_at p n sl ->
  n :: sl = length <$> L <-> exists m, Forall (fun l => length l = m) (take (S p) L).
Proof.
  intros Hp HL. rewrite HL. rewrite turn_same by done.
  assert (Ht : length <$> take (S p) L = take p sl ++ [n]).
  { rewrite fmap_take, HL. unfold insert_at. rewrite take_app_ge by (rewrite take_length; lia).
    rewrite take_length. by replace (S p - p `min` length sl) with 1 by lia. }
  split.
  - intros H. exists n. apply (Forall_fmap length (fun m => m = n)). rewrite Ht. apply Forall_app. split; [|by repeat constructor].
    eapply Forall_impl; [exact H|]. by intros ? <-.
  - intros [m H]. apply (Forall_fmap length (fun k => k = m)) in H. rewrite Ht in H. apply Forall_app in H as [H1 H2].
    apply Forall_cons in H2 as [-> _]. eapply Forall_impl; [exact H1|]. by intros ? ->.
Qed.

Lemma separated_kinds y items rs :
  Forall2 same_kind (pad (lndim y) items) rs -> separated items ->
  adjacent rs = false /\ list_lens rs <> [] /\ existsb b_list items = true /\ forallb b_int items = false.
Proof.
  intros Hk [Hj Hf].
  assert (Ha : adjacent rs = false).
  { destruct (adjacent rs) eqn:Ha; [|done]. destruct Hj. eapply joined_pad_inv. by eapply adjacent_joined. }
  assert (Hl : list_lens rs <> []).
  { intros Hl. destruct Hf. intros i j a b Hij Hia Hjb Hlb. exfalso.
    assert (Hjb' : pad (lndim y) items !! j = Some b). { unfold pad. rewrite lookup_app_l; [done|]. by eapply lookup_lt_Some. }
    destruct (existsb b_list (pad (lndim y) items)) eqn:He; [by apply (kinds_lists _ _ Hk) in He|].
    apply Bool.not_true_iff_false in He. apply He. apply existsb_exists. exists b. split.
    - apply elem_of_list_In. by eapply elem_of_list_lookup_2.
    - by destruct b. }
  assert (He : existsb b_list items = true). { rewrite <-(existsb_pad (lndim y)). by apply (kinds_lists _ _ Hk). }
  split_and!; try done. clear -He. induction items as [|it items IH]; [done|]. simpl in *. destruct it; simpl in *; auto.
Qed.

Lemma getitem_separated_sound y items g :
  valid y -> Forall item_ok items -> separated items -> larry_getitem y (XTuple items) = Ok g ->
  exists ss p z, g = GLar z /\ selects_all (llabel y) items ss /\ list_after items p /\ turned y ss p z.
Proof.
  intros Hv Hok Hsep H. cbn [larry_getitem] in H. apply bind_ok in H as (label & Hl & H). apply bind_ok in H as (b & Hb & H).
  destruct (np_getitem_select _ _ _ Hb) as (q & Hq & Hsq).
  apply np_select_inv in Hq as (Hlen & rs & Hr & Hcase).
  change (shape (larr y)) with (lshape y) in *. change (length (lshape y)) with (lndim y) in Hlen.
  apply tuple_label_ok in Hl as (os & Hos & ->); [|done|done].
  pose proof Hr as Hr'. unfold resolved in Hr'. rewrite <-(valid_shape y Hv) in Hr' at 1. change (length (lshape y)) with (lndim y) in Hr'.
  destruct (items_sound _ _ _ _ (pad_ok (lndim y) items Hok) Hos Hr') as (ss & Hss & Hsel & ->).
  rewrite somes_sel_opt in H.
  pose proof (resolved_kind _ _ _ Hr) as Hk. change (length (lshape y)) with (lndim y) in Hk.
  destruct (separated_kinds y items rs Hk Hsep) as (Ha & Hne & He & Hi). rewrite He, Hi in H. cbn [new_larry] in H.
  apply bind_ok in H as (z & Hz & [= <-]). apply make_some_ok in Hz as (-> & Hnl & Hsz & HN).
  pose proof (sel_labels_length _ _ _ Hsel) as Hsl.
  destruct Hcase as [[? _]|[_ (n & Hn & Hqe)]]; [done|].
  assert (exists n', list_lens rs = [n']) as [n' Hn'].
  { apply (f_equal length) in Hsz. rewrite fmap_length in Hsz. unfold nd_shape in Hsz. simpl in Hsz.
    rewrite Hsq, Hqe in Hsz. simpl in Hsz. rewrite insert_at_len in Hsz.
    destruct (list_lens rs) as [|n' [|]]; [done|eauto|simpl in *; lia]. }
  destruct (separated_get y items rs ss n' Hv Hlen Hr Hsel Hn' Ha) as (b' & Hb' & Hsb & Hwf & Hget).
  rewrite Hb in Hb'. injection Hb' as <-.
  eexists ss, (list_place rs), _. split; [done|]. split.
  { split; [by rewrite valid_ndim|]. by rewrite valid_ndim. }
  split; [eapply list_after_pad; by eapply list_place_slices|].
  split_and!; [split_and!; done|done|done|]. intros k sl Hin. destruct (Hget k sl Hin) as (ls & full & Hls & Hf & Hc).
  exists ls, full. by split_and!.
Qed.

Lemma getitem_separated_cases y items ss p :
  valid y -> Forall item_ok items -> separated items -> one_list items ->
  selects_all (llabel y) items ss -> Forall NoDup (sel_labels ss) -> list_after items p ->
  ((exists m, Forall (fun l => length l = m) (take (S p) (sel_labels ss))) ->
    exists z, larry_getitem y (XTuple items) = Ok (GLar z) /\ turned y ss p z) /\
  (~ (exists m, Forall (fun l => length l = m) (take (S p) (sel_labels ss))) ->
    larry_getitem y (XTuple items) = Err ValueError).
Proof.
  intros Hv Hok Hsep H1 [Hlen Hss] HN Hp. rewrite valid_ndim in Hlen by done. rewrite (valid_ndim y Hv) in Hss.
  change (items ++ replicate (lndim y - length items) (ISlice slice_all)) with (pad (lndim y) items) in Hss.
  destruct (items_complete _ _ _ (pad_ok (lndim y) items Hok) Hss) as (rs & Hr' & Hsel & Hos).
  assert (Hr : resolved (lshape y) items rs).
  { unfold resolved. rewrite <-(valid_shape y Hv) at 1. exact Hr'. }
  pose proof (resolved_kind _ _ _ Hr) as Hk. change (length (lshape y)) with (lndim y) in Hk.
  destruct (separated_kinds y items rs Hk Hsep) as (Ha & Hne & He & Hi).
  assert (H1' : length (list_lens rs) <= 1) by (eapply one_list_lens; [exact Hk|]; by apply pad_one_list).
  destruct (list_lens rs) as [|n [|]] eqn:Hn; [done| |simpl in H1'; lia].
  destruct (separated_get y items rs ss n Hv Hlen Hr Hsel Hn Ha) as (b & Hb & Hsb & Hwf & Hget).
  assert (p = list_place rs) as ->.
  { eapply one_list_after; [done|done|]. eapply list_after_pad. by eapply list_place_slices. }
  cbn [larry_getitem]. assert (tuple_label y items = Ok (sel_labels ss)) as ->.
  { apply tuple_label_ok; [done|done|]. eexists. split; [exact Hos|]. by rewrite somes_sel_opt. }
  cbn [mbind res_bind]. rewrite Hb. cbn [mbind res_bind]. rewrite Hi, He. cbn [new_larry].
  pose proof (sels_shape _ _ _ Hsel) as Hsh. rewrite (one_list_shape rs n Hn) in Hsh.
  pose proof (list_place_le rs n Hn) as Hple.
  pose proof (turn_lengths (sel_labels ss) n (list_place rs) (slice_lens rs) Hple Hsh) as Ht.
  assert (Hnl : sel_labels ss <> []).
  { intros Hnil. rewrite Hnil in Hsh. apply (f_equal length) in Hsh. rewrite insert_at_len in Hsh. done. }
  split.
  - intros Hm. apply Ht in Hm.
    assert (make (Nda (ldtype y) b) (Some (sel_labels ss)) = Ok (Larry (Nda (ldtype y) b) (sel_labels ss))) as ->.
    { apply make_some_ok. split_and!; try done. unfold nd_shape. simpl. by rewrite Hsb. }
    cbn [mbind res_bind]. eexists. split; [done|]. split_and!; [split_and!; try done|done|done|].
    { unfold lshape. simpl. unfold nd_shape. simpl. by rewrite Hsb. }
    intros k sl Hin. destruct (Hget k sl Hin) as (ls & full & Hls & Hf & Hc). exists ls, full. by split_and!.
  - intros Hm. destruct (make (Nda (ldtype y) b) (Some (sel_labels ss))) as [z|e] eqn:Hz.
    + exfalso. apply make_some_ok in Hz as (_ & _ & Hsz & _). apply Hm, Ht. unfold nd_shape in Hsz. simpl in Hsz. by rewrite <-Hsb.
    + apply make_err in Hz as ->. done.
Qed.

(** * Short tuples of integers *)
Lemma ints_no_list n items rs : Forall is_int items -> Forall2 same_kind (pad n items) rs -> list_lens rs = [].
Proof.
  intros Hi Hk. destruct (decide (list_lens rs = [])) as [|Hne]; [done|]. apply (kinds_lists _ _ Hk) in Hne.
  rewrite existsb_pad in Hne. exfalso. clear -Hi Hne. induction Hi as [|it items Hit Hi IH]; [done|].
  simpl in Hne. destruct it; simpl in *; try done.
Qed.
Lemma getitem_short y items ss :
  valid y -> Forall is_int items -> length items < length (llabel y) -> selects_all (llabel y) items ss ->
  exists a, larry_getitem y (XTuple items) = Ok (GArr a) /\ restricted y ss (Larry a (sel_labels ss)).
Proof.
  intros Hv Hi Hlt [Hlen Hss]. rewrite valid_ndim in Hlen by done. rewrite (valid_ndim y Hv) in Hss, Hlt.
  assert (Hok : Forall item_ok items) by (eapply Forall_impl; [exact Hi|]; by intros []).
  change (items ++ replicate (lndim y - length items) (ISlice slice_all)) with (pad (lndim y) items) in Hss.
  destruct (items_complete _ _ _ (pad_ok (lndim y) items Hok) Hss) as (rs & Hr' & Hsel & Hos).
  assert (Hr : resolved (lshape y) items rs).
  { unfold resolved. rewrite <-(valid_shape y Hv) at 1. exact Hr'. }
  pose proof (resolved_kind _ _ _ Hr) as Hk. change (length (lshape y)) with (lndim y) in Hk.
  pose proof (ints_no_list _ _ _ Hi Hk) as Hnl.
  destruct (select_get y items rs ss Hv Hlen Hr Hsel) as (b & Hb & Hsb & Hres & Hval); [rewrite Hnl; simpl; lia|done|].
  cbn [larry_getitem]. assert (tuple_label y items = Ok (sel_labels ss)) as ->.
  { apply tuple_label_ok; [done|done|]. eexists. split; [exact Hos|]. by rewrite somes_sel_opt. }
  cbn [mbind res_bind]. rewrite Hb. cbn [mbind res_bind]. rewrite (proj2 (forallb_ints items) Hi).
  assert (Hne : sel_labels ss <> []).
  { intros Hnil. apply (ints_sel_labels _ _ _ _ Hk Hsel) in Hnil. unfold pad in Hnil.
    apply Forall_app in Hnil as [_ Hi']. destruct (lndim y - length items) as [|k] eqn:E; [lia|]. simpl in Hi'.
    by apply Forall_cons in Hi' as [[] _]. }
  assert (HN : Forall NoDup (sel_labels ss)).
  { eapply sels_nodup; [by apply valid_nodup| |exact Hsel|done]. rewrite valid_shape by done. exact Hr. }
  specialize (Hres Hne HN). exists (Nda (ldtype y) b). split; [|exact Hres].
  rewrite Hsb. by destruct (sel_labels ss).
Qed.
Lemma getitem_short_sound y items g :
  valid y -> Forall is_int items -> length items < length (llabel y) -> larry_getitem y (XTuple items) = Ok g ->
  exists ss a, selects_all (llabel y) items ss /\ g = GArr a /\ restricted y ss (Larry a (sel_labels ss)).
Proof.
  intros Hv Hi Hlt H. assert (Hok : Forall item_ok items) by (eapply Forall_impl; [exact Hi|]; by intros []).
  assert (exists ss, selects_all (llabel y) items ss) as [ss Hss].
  { cbn [larry_getitem] in H. apply bind_ok in H as (label & Hl & H). apply bind_ok in H as (b & Hb & H).
    destruct (np_getitem_select _ _ _ Hb) as (q & Hq & Hsq).
    apply np_select_inv in Hq as (Hlen & rs & Hr & Hcase).
    change (shape (larr y)) with (lshape y) in *. change (length (lshape y)) with (lndim y) in Hlen.
    apply tuple_label_ok in Hl as (os & Hos & ->); [|done|done].
    pose proof Hr as Hr'. unfold resolved in Hr'. rewrite <-(valid_shape y Hv) in Hr' at 1. change (length (lshape y)) with (lndim y) in Hr'.
    destruct (items_sound _ _ _ _ (pad_ok (lndim y) items Hok) Hos Hr') as (ss & Hss & Hsel & ->).
    exists ss. split; [by rewrite valid_ndim|]. by rewrite valid_ndim. }
  destruct (getitem_short y items ss Hv Hi Hlt Hss) as (a & Ha & Hr). exists ss, a. split_and!; [done| |done]. congruence.
Qed.
