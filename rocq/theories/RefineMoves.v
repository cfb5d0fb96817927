(** Views do not use an element twice. *)
From Verif Require Export RefineFacts.

Lemma gather_NoDup {A} (a b : arr A) sh m : gather a sh m = Some b -> NoDup (data a) ->
  (forall i j k, in_range sh i -> in_range sh j -> m i = Some k -> m j = Some k -> i = j) -> NoDup (data b).
Proof.
  unfold gather, build. intros (vs & Hm & ->)%fmap_Some Hd Hi. simpl. apply mapM_Some in Hm.
  apply NoDup_alt. intros k1 k2 v H1 H2.
  destruct (Forall2_lookup_r _ _ _ _ _ Hm H1) as (i1 & Hi1 & Hg1). destruct (Forall2_lookup_r _ _ _ _ _ Hm H2) as (i2 & Hi2 & Hg2).
  simpl in Hg1, Hg2. apply bind_Some in Hg1 as (j1 & Hj1 & Hg1). apply bind_Some in Hg2 as (j2 & Hj2 & Hg2).
  assert (Hr1 : in_range sh i1) by (apply elem_of_indices; by eapply elem_of_list_lookup_2).
  assert (Hr2 : in_range sh i2) by (apply elem_of_indices; by eapply elem_of_list_lookup_2).
  pose proof (get_in_range _ _ _ Hg1) as Hs1. pose proof (get_in_range _ _ _ Hg2) as Hs2.
  rewrite get_ravel in Hg1, Hg2 by done.
  assert (j1 = j2) as <- by (eapply ravel_inj; [done|done|by eapply NoDup_lookup]).
  assert (i1 = i2) as <- by (by eapply Hi). eapply NoDup_lookup; [apply NoDup_indices|done|done].
Qed.
Lemma take_pos_NoDup {A} (a b : arr A) ids ax : take_pos a ids ax = Some b -> NoDup ids -> NoDup (data a) -> NoDup (data b).
Proof.
  unfold take_pos, axlen. destruct (shape a !! ax) as [n|] eqn:Hn; simpl; [|done]. case_decide; [|done]. intros Hg Hids Hd.
  eapply gather_NoDup; [exact Hg|done|]. intros i j k Hi Hj Hmi Hmj.
  apply bind_Some in Hmi as (ki & Hki & Hmi). apply bind_Some in Hmi as (pi & Hpi & [= <-]).
  apply bind_Some in Hmj as (kj & Hkj & Hmj). apply bind_Some in Hmj as (pj & Hpj & [= He]).
  assert (Hax : ax < length i) by (by eapply lookup_lt_Some). assert (Hax' : ax < length j) by (by eapply lookup_lt_Some).
  assert (pi = pj) as <-.
  { pose proof (f_equal (.!! ax) He) as H'. simpl in H'. rewrite !list_lookup_insert in H' by done. by injection H'. }
  assert (ki = kj) as <- by (eapply NoDup_lookup; [exact Hids|done|done]).
  apply list_eq. intros k. destruct (decide (k = ax)) as [->|Hne]; [by rewrite Hki, Hkj|].
  pose proof (f_equal (.!! k) He) as H'. simpl in H'. by rewrite !list_lookup_insert_ne in H' by done.
Qed.
Lemma moves_slice_axis s ax : moves (fun x => slice_axis x s ax) (fun x => slice_axis x s ax).
Proof.
  split; [intros; by apply slice_axis_rel|]. unfold slice_axis. intros a q H Hd.
  apply bind_ok in H as (n & Hn & H). apply bind_ok in H as (ps & Hps & H). apply of_opt_ok in H.
  eapply take_pos_NoDup; [done| |done]. by eapply slice_positions_ok.
Qed.
Lemma moves_transpose e : moves (fun x => of_opt e (transpose x)) (fun x => of_opt e (transpose x)).
Proof.
  split; [intros; by apply of_opt_rel, transpose_rel|]. intros a q H Hd. apply of_opt_ok in H.
  eapply gather_NoDup; [done|done|]. intros i j k _ _ [= <-] [= He]. by apply (f_equal reverse) in He; rewrite !reverse_involutive in He.
Qed.
Lemma moves_swapaxes e i j : moves (fun x => of_opt e (np_swapaxes x i j)) (fun x => of_opt e (np_swapaxes x i j)).
Proof.
  split; [intros; by apply of_opt_rel, np_swapaxes_rel|]. intros a q H Hd. apply of_opt_ok in H.
  unfold np_swapaxes in H. apply bind_Some in H as (sh & Hsh & H).
  eapply gather_NoDup; [done|done|]. intros k k' r _ _ H1%swap_at_invol H2%swap_at_invol. congruence.
Qed.
Lemma moves_expand_dims z : moves (fun x => Ok (expand_dims x z)) (fun x => Ok (expand_dims x z)).
Proof. split; [intros; by apply expand_dims_rel|]. by intros a q [= <-]. Qed.
Lemma moves_squeeze : moves (fun x => Ok (np_squeeze x)) (fun x => Ok (np_squeeze x)).
Proof. split; [intros; by apply np_squeeze_rel|]. by intros a q [= <-]. Qed.
Lemma moves_pick_axis e i ax : moves (fun x => of_opt e (pick_axis x i ax)) (fun x => of_opt e (pick_axis x i ax)).
Proof.
  split; [intros; by apply of_opt_rel, pick_axis_rel|]. intros a q H Hd. apply of_opt_ok in H.
  unfold pick_axis, axlen in H. apply bind_Some in H as (n & Hn & H).
  eapply gather_NoDup; [done|done|]. intros k k' r Hk Hk' [= <-] [= He].
  apply in_range_length in Hk, Hk'. apply lookup_lt_Some in Hn. rewrite remove_at_length in Hk, Hk' by done.
  apply (f_equal (remove_at ax)) in He. by rewrite !remove_insert_at in He by lia.
Qed.

Definition plain_r (r : ritem) : Prop := match r with RInt _ => True | RSlice ps => NoDup ps | RList _ => False end.
Lemma weave_inj rs k sl sl' r : Forall plain_r rs -> weave rs k sl = Some r -> weave rs k sl' = Some r -> sl = sl'.
Proof.
  intros Hrs. revert sl sl' r. induction Hrs as [|x rs Hx Hrs IH]; intros sl sl' r; simpl.
  - by destruct sl, sl'.
  - destruct x as [p|ps|ps]; simpl in Hx; [| |done].
    + intros (r1 & H1 & [= <-])%bind_Some (r2 & H2 & [= <-])%bind_Some. by eapply IH.
    + destruct sl as [|i sl], sl' as [|i' sl']; try done.
      intros (p & Hp & H1)%bind_Some (p' & Hp' & H2)%bind_Some.
      apply bind_Some in H1 as (r1 & H1 & [= <-]). apply bind_Some in H2 as (r2 & H2 & [= -> <-]).
      f_equal; [by eapply NoDup_lookup|by eapply IH].
Qed.
Lemma moves_getitem items : existsb b_list items = false ->
  moves (fun x => np_getitem x items) (fun x => np_getitem x items).
Proof.
  intros Hit. split; [intros; by apply np_getitem_rel|]. intros a q H Hd. unfold np_getitem in H.
  apply bind_ok in H as (s & Hs & H). apply of_opt_ok in H. unfold np_select in Hs. case_decide; [done|].
  apply bind_ok in Hs as (rs & Hrs & Hs).
  assert (Hpl : Forall plain_r rs).
  { apply mapR_ok in Hrs. apply Forall_lookup. intros k r Hr. destruct (Forall2_lookup_r _ _ _ _ _ Hrs Hr) as ([n it] & Hk & Hres).
    assert (Hb : b_list it = false).
    { apply elem_of_list_lookup_2 in Hk. apply elem_of_zip_r in Hk. apply elem_of_app in Hk as [Hk|Hk].
      - destruct (b_list it) eqn:Hb; [|done]. rewrite <-Hit. symmetry. apply existsb_exists.
        exists it. split; [by apply elem_of_list_In|done].
      - by apply elem_of_replicate in Hk as [-> _]. }
    simpl in Hres. destruct it as [z|s'|l|l|m]; try done.
    - apply bind_ok in Hres as (p & _ & [= <-]). done.
    - apply bind_ok in Hres as (ps & Hps & [= <-]). simpl. by eapply slice_positions_ok. }
  assert (Hl : list_lens rs = []).
  { unfold list_lens. clear -Hpl. induction Hpl as [|r rs Hr Hrs IH]; [done|]. destruct r; simpl in *; done. }
  rewrite Hl in Hs. injection Hs as <-. simpl in H.
  eapply gather_NoDup; [done|done|]. intros i j k _ _ Hi Hj. by eapply weave_inj.
Qed.
