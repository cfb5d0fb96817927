(** When vacuum, cut_missing and push raise. *)
From Verif Require Export CutFacts.

Definition textual (y : larry) : Prop := ldtype y = DStr \/ ldtype y = DObj.
Lemma test_mask_text p y : textual y -> test_mask p (lx y) = Err TypeError.
Proof. intros H. unfold test_mask. change (nd_dtype (lx y)) with (ldtype y). by destruct H as [-> | ->]. Qed.
Lemma valid_axlen y ax : valid y -> ax < lndim y -> exists n, axlen (larr y) ax = Some n /\ lshape y !! ax = Some n.
Proof.
  intros Hv Hax. destruct (lookup_lt_is_Some_2 (lshape y) ax Hax) as [n Hn]. exists n. split; [|done]. exact Hn.
Qed.
Lemma cut_slices_text p cut y ax : valid y -> textual y -> ax < lndim y -> cut ax = true -> cut_slices p cut y = Err TypeError.
Proof.
  intros Hv Ht Hax Hc. unfold cut_slices. rewrite (test_mask_text _ _ Ht).
  set (F := fun ax => n ← of_opt IndexError (axlen (larr y) ax); if cut ax then m ← Err TypeError; slice_test p m ax else Ok (seq 0 n)).
  destruct (mapR F (seq 0 (lndim y))) as [ids|e] eqn:E.
  - apply mapR_ok in E. destruct (Forall2_lookup_l _ _ _ ax ax E) as (i & _ & Hi); [by apply lookup_seq_lt|].
    unfold F in Hi. destruct (valid_axlen y ax Hv Hax) as (n & Hn & _). rewrite Hn in Hi. cbn [of_opt mbind res_bind] in Hi. by rewrite Hc in Hi.
  - cbn [mbind res_bind]. f_equal. eapply mapR_err_all; [|exact E]. intros k e' Hk Hf. apply elem_of_seq in Hk.
    unfold F in Hf. destruct (valid_axlen y k Hv ltac:(lia)) as (n & Hn & _). rewrite Hn in Hf. cbn [of_opt mbind res_bind] in Hf.
    destruct (cut k); [by injection Hf as <-|done].
Qed.
Lemma lookup_all_seq sh idx : in_range sh idx -> lookup_all (seq 0 <$> sh) idx = Some idx.
Proof.
  revert idx. induction sh as [|n sh IH]; intros idx Hr.
  - apply in_range_nil in Hr as ->. done.
  - apply in_range_cons in Hr as (i & idx' & -> & Hi & Hr). csimpl. rewrite lookup_seq_lt by done. simpl. by rewrite IH.
Qed.
Lemma cut_slices_nothing p cut y : valid y -> (forall ax, ax < lndim y -> cut ax = false) -> cut_slices p cut y = Ok y.
Proof.
  intros Hv Hc. unfold cut_slices.
  assert (Hids : mapR (fun ax => n ← of_opt IndexError (axlen (larr y) ax);
          if cut ax then m ← test_mask is_finite (lx y); slice_test p m ax else Ok (seq 0 n)) (seq 0 (lndim y)) = Ok (seq 0 <$> lshape y)).
  { apply mapR_ok. apply Forall2_same_length_lookup_2; [by rewrite seq_length, fmap_length|]. intros k ax l Hk Hl.
    apply lookup_seq in Hk as [-> Hlt]. simpl in *. rewrite list_lookup_fmap in Hl. rewrite Hc by done.
    destruct (valid_axlen y k Hv Hlt) as (n & Hn & Hs). rewrite Hs in Hl. injection Hl as <-. by rewrite Hn. }
  rewrite Hids. cbn [mbind res_bind].
  assert (Hlab : mapR (fun q : list lab * list nat => of_opt IndexError (mapM (q.1 !!.) q.2)) (zip (llabel y) (seq 0 <$> lshape y)) = Ok (llabel y)).
  { apply mapR_ok. rewrite <-(valid_shape y Hv). rewrite <-list_fmap_compose, zip_with_fmap_r.
    apply Forall2_same_length_lookup_2; [rewrite zip_with_length; lia|]. intros k q l Hq Hl.
    rewrite lookup_zip_with, Hl in Hq. simpl in Hq. injection Hq as <-. simpl. apply of_opt_ok, mapM_Some.
    apply Forall2_same_length_lookup_2; [by rewrite seq_length|]. intros i j x Hi Hx. by apply lookup_seq in Hi as [-> _]. }
  rewrite Hlab. cbn [mbind res_bind].
  assert (Hsz : length <$> (seq 0 <$> lshape y) = lshape y).
  { rewrite <-list_fmap_compose. apply list_eq. intros k. rewrite list_lookup_fmap. destruct (lshape y !! k); simpl; [|done]. by rewrite seq_length. }
  assert (outer_take (larr y) (seq 0 <$> lshape y) = Some (larr y)) as ->.
  { unfold outer_take. rewrite Hsz. apply gather_Some. split; [done|]. split; [by apply valid_wf|]. intros idx Hi. by rewrite (lookup_all_seq _ _ Hi). }
  cbn [of_opt mbind res_bind]. destruct y as [[dt a] L]. done.
Qed.

Lemma vacuum_text y axis : valid y -> textual y ->
  (vacuum y axis = Ok y /\ forall ax, ax < lndim y -> match axis with AxNone => False | AxInt a => Z.of_nat ax = a | AxTuple l => Z.of_nat ax ∈ l end) \/
  (vacuum y axis = Err TypeError /\ exists ax, ax < lndim y /\ match axis with AxNone => True | AxInt a => Z.of_nat ax <> a | AxTuple l => Z.of_nat ax ∉ l end).
Proof.
  intros Hv Ht. unfold vacuum. set (cut := fun ax => _).
  destruct (decide (Forall (fun ax => cut ax = false) (seq 0 (lndim y)))) as [H|H].
  - left. rewrite Forall_forall in H. split; [apply cut_slices_nothing; [done|]; intros ax Hax; apply H, elem_of_seq; lia|].
    intros ax Hax. specialize (H ax ltac:(apply elem_of_seq; lia)). unfold cut in H.
    destruct axis as [|a|l]; [done|by apply negb_false_iff, bool_decide_eq_true in H..].
  - right. apply not_Forall_Exists in H; [|apply _]. apply Exists_exists in H as (ax & Hax & H). apply elem_of_seq in Hax.
    assert (cut ax = true) as Hc by (apply not_false_is_true; intros E; by apply H).
    split; [apply (cut_slices_text _ _ _ ax); [done|done|lia|done]|]. exists ax. split; [lia|]. unfold cut in Hc.
    destruct axis as [|a|l]; [done|by apply negb_true_iff, bool_decide_eq_false in Hc..].
Qed.
Lemma cut_missing_error y f a : valid y ->
  ((forall ax, ~ axis_is y a ax) -> cut_missing y f (Some a) = Err IndexError) /\
  (textual y -> forall ax, axis_is y a ax -> 1 < lndim y -> cut_missing y f (Some a) = Err TypeError).
Proof.
  intros Hv. pose proof (valid_ndim y Hv) as Hn. split.
  - intros Hno. unfold cut_missing. destruct (py_index (lndim y) a) as [k|] eqn:E; [|done].
    exfalso. apply (Hno k). unfold axis_is. rewrite Hn. by apply py_index_Some in E.
  - intros Ht ax Hax Hgt. unfold cut_missing.
    assert (py_index (lndim y) a = Some ax) as ->. { apply py_index_Some. rewrite <-Hn. exact Hax. }
    cbn [of_opt mbind res_bind].
    rewrite (cut_slices_text _ _ _ (if decide (ax = 0) then 1 else 0)); [done|done|done|case_decide; lia|].
    rewrite bool_decide_eq_false_2; [done|]. rewrite elem_of_list_singleton. case_decide; lia.
Qed.
Lemma larry_push_error y n a : valid y ->
  (textual y -> larry_push y n a = Err TypeError) /\
  (~ textual y -> (forall ax, ~ axis_is y a ax) -> larry_push y n a = Err ValueError).
Proof.
  intros Hv. unfold textual, larry_push. split; [by intros [-> | ->]|]. intros Ht Hno.
  unfold norm_axis. destruct (py_index (lndim y) a) as [k|] eqn:E.
  - exfalso. apply (Hno k). unfold axis_is. rewrite (valid_ndim y Hv). by apply py_index_Some in E.
  - destruct (ldtype y); try done; exfalso; apply Ht; auto.
Qed.
