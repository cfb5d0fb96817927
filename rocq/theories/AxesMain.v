(** The order of the axes changes nothing but the order of the axes. *)
From Verif Require Export AxesReduce.
From Verif Require Import ReorderMain LarryMove.

(** * Summaries and normalisations over all axes *)
Lemma lperms_dtype os y y' : lperms os y y' -> ldtype y' = ldtype y.
Proof. intros (_ & _ & [Hd _] & _). done. Qed.
Lemma lperms_size os y y' : lperms os y y' -> lsize y' = lsize y.
Proof. intros (_ & _ & [_ Hp] & _). apply (perms_size os (nd_arr (lx y)) (nd_arr (lx y')) Hp). Qed.
Lemma lperms_data os y y' : lperms os y y' -> data (larr y') ≡ₚ data (larr y).
Proof. intros (_ & _ & [_ Hp] & _). by eapply perms_data. Qed.
Lemma lperms_check os y y' : lperms os y y' -> check_numeric (lx y') = check_numeric (lx y).
Proof. intros (_ & _ & [Hd _] & _). unfold check_numeric. by rewrite Hd. Qed.
Lemma red_all op os y y' : lperms os y y' -> larry_reduce op y' None = larry_reduce op y None.
Proof.
  intros H. unfold larry_reduce. rewrite (lperms_size _ _ _ H), (lperms_dtype _ _ _ H). case_decide; [done|].
  by rewrite (red_lane_free op (ldtype y) _ _ (lperms_data _ _ _ H)).
Qed.
Lemma nums_all f e os y y' : order_free f -> lperms os y y' -> reduce_nums f e y' None = reduce_nums f e y None.
Proof.
  intros Hf H. unfold reduce_nums. rewrite (lperms_size _ _ _ H), (lperms_check _ _ _ H). case_decide; [done|].
  by rewrite (nums_free f Hf _ _ (lperms_data _ _ _ H)).
Qed.
Lemma prod_all os y y' : lperms os y y' -> sim eq (larry_prod y None) (larry_prod y' None).
Proof.
  intros Hlp. unfold larry_prod. eapply sim_bind; [apply test_mask_psim, Hlp|]. intros m m' [Hm Hsm]. intros z Hz. apply bind_ok in Hz as (x & Hx & Hz).
  destruct (putmask_scalar_psim os _ _ _ _ _ (proj1 (proj2 (proj2 Hlp))) Hm Hsm _ Hx) as (x' & -> & Hpx). cbn [mbind res_bind].
  assert (Hvx : valid (Larry x (llabel y))).
  { destruct (putmask_scalar_nda (lx y) m (VInt 1) x) as (? & ? & ?); [apply Hlp|apply Hm|done|done|]. apply data_valid; [apply Hlp|done|done]. }
  assert (Hl : lperms os (Larry x (llabel y)) (Larry x' (llabel y'))) by (destruct Hlp as (_ & _ & _ & ->); by apply plift).
  rewrite (red_all RProd _ _ _ Hl). revert z Hz. apply sim_bind_same. intros r _. rewrite (forallb_perm id _ _ (perms_data _ _ _ Hm)). by apply sim_ret.
Qed.
Lemma summary_all_sim f os y y' : summary_method f -> lperms os y y' -> sim eq (f y None) (f y' None).
Proof.
  intros Hf H. destruct Hf.
  - rewrite (red_all _ _ _ _ H). apply sim_same.
  - unfold larry_std, larry_var. rewrite (red_all _ _ _ _ H), (lperms_size _ _ _ H). apply sim_same.
  - by eapply prod_all.
  - unfold larry_geometric_mean. rewrite (lperms_size _ _ _ H), (lperms_check _ _ _ H), (geometric_check_perm _ os y y' H).
    rewrite (nums_all (fun _ => NaN) ValueError os y y') by done. rewrite (nums_all (geometric_lane log exp) ValueError os y y') by (done || apply geometric_free).
    apply sim_same.
Qed.

Lemma lanewise_all f os y y' : (exists g, ReorderFacts.pointwise f g) -> lperms os y y' -> sim (nperms os) (lanewise f (lx y) None) (lanewise f (lx y') None).
Proof.
  intros [g Hf] H. pose proof (lperms_dtype _ _ _ H) as Hd. unfold lanewise. rewrite (lperms_check _ _ _ H).
  apply sim_bind_same. intros [] Hc. pose proof (lperms_data _ _ _ H) as Hdp.
  assert (Hdt : nd_dtype (lx y) = DFloat \/ nd_dtype (lx y) = DInt) by (unfold check_numeric in Hc; destruct (nd_dtype (lx y)); try done; auto).
  assert (Hdt' : nd_dtype (lx y') = DFloat \/ nd_dtype (lx y') = DInt) by (change (nd_dtype (lx y')) with (ldtype y'); rewrite Hd; done).
  assert (Hw : nda_wf (lx y)) by apply H. assert (Hw' : nda_wf (lx y')) by apply H.
  apply sim_ret. split; [done|]. unfold on_nums. rewrite (omap_tonum (nd_dtype (lx y))), (omap_tonum (nd_dtype (lx y'))) by (done || apply Hw || apply Hw').
  destruct (on_nums_pointwise f g Hf) as [Hg Hfg]. cbn beta in *. change (nd_arr (lx y)) with (larr y). change (nd_arr (lx y')) with (larr y').
  pose proof (Hfg (data (larr y))) as E. pose proof (Hfg (data (larr y'))) as E'. cbn beta in *. simpl. unfold nd_shape. unfold larr in *. rewrite E, E'.
  assert ((λ v : val, VFloat (g (tonum <$> data (nd_arr (lx y'))) (tonum v))) <$> data (nd_arr (lx y')) =
          (λ v : val, VFloat (g (tonum <$> data (nd_arr (lx y))) (tonum v))) <$> data (nd_arr (lx y'))) as ->.
  { apply list_fmap_ext. intros _ v _. by apply (Hg v). }
  apply (perms_amap os (nd_arr (lx y)) (nd_arr (lx y'))). apply H.
Qed.
Lemma normal_all_sim f os y y' : normal_method f -> lperms os y y' -> sim (lprel os) (f y None) (f y' None).
Proof.
  intros Hf H. destruct Hf; (eapply lprel_bind; [apply H|]).
  - apply lanewise_all; [eexists; apply centre_pointwise|done].
  - apply lanewise_all; [eexists; apply centre_pointwise|done].
  - apply lanewise_all; [apply zscore_pointwise|done].
  - unfold np_ranking. rewrite (lperms_check _ _ _ H). apply sim_bind_same. intros o Ho. apply sim_bind_same. intros [] _.
    assert (o = None) as -> by (by injection Ho). destruct norm; try apply sim_err; (apply lanewise_all; [apply ranking_pointwise|done]).
Qed.

(** * Back and forth *)
Lemma lperms_back os y y' : lperms os y y' -> exists os', lperms os' y' y /\ forall i k, os !! k = Some i <-> os' !! i = Some k.
Proof.
  intros Hlp. pose proof (lperms_order _ _ _ Hlp) as Ho. pose proof Hlp as (Hv & Hv' & _). pose proof (lperms_axes _ _ _ Hlp) as (_ & _ & Hd & Hl & Hc).
  destruct (inverse_order _ _ Ho) as (os' & Ho' & Hinv). exists os'. split; [|done]. apply axes_lperms; [done|].
  assert (Hlen : length (llabel y') = length (llabel y)) by (rewrite Hl; by apply permute_length).
  split_and!; [by rewrite Hlen|done|done|rewrite Hl; symmetry; by apply inverse_permute|].
  intros ls Hg. assert (length ls = length (llabel y)) as Hll by (apply Forall2_length in Hg; by rewrite Hlen in Hg).
  destruct (permute_exists (fun _ (_ : lab) => True) os _ ls Ho Hll) as (ls0 & Hl0 & <-).
  rewrite inverse_permute; [|by rewrite Hl0|by rewrite Hl0|done]. symmetry. apply Hc.
  apply Forall2_same_length_lookup_2; [done|]. intros i x t Hx Ht. destruct (perm_pos os _ i Ho) as [k Hk]; [by eapply lookup_lt_Some|].
  rewrite Hl in Hg. eapply (Forall2_lookup_lr _ _ _ k) in Hg; [exact Hg|by rewrite (permute_lookup_Some os ls0 k i) by (done || by rewrite Hl0)|by rewrite (permute_lookup_Some os _ k i)].
Qed.
Lemma same_axis_back os y y' axis axis' ax k : same_axis os y y' axis axis' ax k -> exists os', same_axis os' y' y axis' axis k ax.
Proof. intros (Hlp & Hax & Hax' & Hk). destruct (lperms_back _ _ _ Hlp) as (os' & Hlp' & Hinv). exists os'. split_and!; [done..|]. by apply Hinv. Qed.
Lemma sim_both {A} (R R1 R2 : A -> A -> Prop) r r' : sim R1 r r' -> sim R2 r' r -> (forall a b, r = Ok a -> r' = Ok b -> R1 a b -> R a b) -> both R r r'.
Proof.
  intros H1 H2 HR. destruct r as [a|e].
  - destruct (H1 a eq_refl) as (b & -> & Hb). by apply HR.
  - destruct r' as [b|e']; [|done]. by destruct (H2 b eq_refl) as (a & ? & _).
Qed.
Lemma lprel_axes os z z' : valid z -> lprel os z z' -> axes_permuted os z z'.
Proof.
  intros Hv [Hn Hl]. apply lperms_axes. destruct z as [x l], z' as [x' l']. simpl in *. subst l'. by apply plift.
Qed.
Lemma cell_lprel f os y y' : cell_method f -> lperms os y y' -> sim (lprel os) (f y) (f y').
Proof.
  intros Hf (Hv & Hv' & Hn & Hl) z Hz. destruct (cell_turns f Hf os y y' Hv Hv' Hn z Hz) as (z' & Hz' & x & x' & -> & -> & Hx). exists (Larry x' (llabel y')). by split_and!.
Qed.

Lemma axes_cells f o y y' : cell_method f -> valid y -> axes_permuted o y y' -> both (axes_permuted o) (f y) (f y').
Proof.
  intros Hf Hv H. apply axes_lperms in H; [|done]. destruct (lperms_back _ _ _ H) as (o' & H' & _).
  eapply sim_both; [by apply cell_lprel|by eapply cell_lprel|]. intros z z' Hz _. apply lprel_axes. by eapply cell_valid.
Qed.
Lemma axes_lanes f o y y' axis axis' ax k : lane_method f -> valid y -> axes_permuted o y y' ->
  axis_is y axis ax -> axis_is y' axis' k -> o !! k = Some ax -> both (axes_permuted o) (f y axis) (f y' axis').
Proof.
  intros Hf Hv H Hax Hax' Hk. apply axes_lperms in H; [|done]. assert (Hs : same_axis o y y' axis axis' ax k) by done. destruct (same_axis_back _ _ _ _ _ _ _ Hs) as (o' & Hs').
  eapply sim_both; [by eapply lane_method_turns|by eapply lane_method_turns|]. intros z z' Hz _. apply lprel_axes. by eapply lane_valid.
Qed.
Lemma axes_reductions f o y y' axis axis' ax k : reduce_method f -> valid y -> axes_permuted o y y' ->
  axis_is y axis ax -> axis_is y' axis' k -> o !! k = Some ax -> both (out_permuted (order_left k ax o)) (f y axis) (f y' axis').
Proof.
  intros Hf Hv H Hax Hax' Hk. apply axes_lperms in H; [|done]. assert (Hs : same_axis o y y' axis axis' ax k) by done. destruct (same_axis_back _ _ _ _ _ _ _ Hs) as (o' & Hs').
  eapply sim_both; [by eapply reduce_method_turns|by eapply reduce_method_turns|]. intros [z|v] [z'|v'] Hz _ HR; try done. simpl in *. apply lprel_axes; [|done]. by eapply reduce_method_valid.
Qed.
Lemma axes_summaries f o y y' : summary_method f -> valid y -> axes_permuted o y y' -> both eq (f y None) (f y' None).
Proof.
  intros Hf Hv H. apply axes_lperms in H; [|done]. destruct (lperms_back _ _ _ H) as (o' & H' & _).
  eapply sim_both; [by eapply summary_all_sim|by eapply summary_all_sim|]. done.
Qed.
Lemma axes_normal f o y y' : normal_method f -> valid y -> axes_permuted o y y' -> both (axes_permuted o) (f y None) (f y' None).
Proof.
  intros Hf Hv H. apply axes_lperms in H; [|done]. destruct (lperms_back _ _ _ H) as (o' & H' & _).
  eapply sim_both; [by eapply normal_all_sim|by eapply normal_all_sim|]. intros z z' Hz _. apply lprel_axes. by eapply normal_valid.
Qed.
Lemma axes_there_and_back o y y' : valid y -> axes_permuted o y y' -> exists o', axes_permuted o' y' y /\ forall i k, o !! k = Some i <-> o' !! i = Some k.
Proof.
  intros Hv H. apply axes_lperms in H; [|done]. destruct (lperms_back _ _ _ H) as (o' & H' & Hi). exists o'. split; [by apply lperms_axes|done].
Qed.

(** * Transposing *)
Lemma rev_lookup n k : k < n -> reverse (seq 0 n) !! k = Some (n - 1 - k).
Proof. intros Hk. rewrite reverse_lookup by (by rewrite seq_length). rewrite seq_length. rewrite lookup_seq_lt by lia. f_equal. lia. Qed.
Lemma rev_perm n : perm_of (reverse (seq 0 n)) n.
Proof. unfold perm_of. by rewrite reverse_Permutation. Qed.
Lemma permute_reverse {A} (l : list A) : permute (reverse (seq 0 (length l))) l = reverse l.
Proof.
  apply list_ext_len; [by rewrite reverse_length, permute_length by apply rev_perm|]. intros k Hk. rewrite permute_length in Hk by apply rev_perm.
  rewrite (permute_lookup_Some _ _ k (length l - 1 - k)) by (apply rev_perm || by apply rev_lookup). rewrite reverse_lookup by done. f_equal. lia.
Qed.
Lemma T_permutes y : valid y -> exists y', larry_T y = Ok y' /\ axes_permuted (reverse (seq 0 (length (llabel y)))) y y'.
Proof.
  intros Hv. destruct (larry_T_spec y Hv) as (y' & HT & Hv' & Hd & Hl & Hc). exists y'. split; [done|]. split_and!; [apply rev_perm|done|done|by rewrite permute_reverse|].
  intros ls Hg. apply Forall2_length in Hg. rewrite <-Hg, permute_reverse, Hc. by rewrite reverse_involutive.
Qed.
Lemma T_axes y y' : valid y -> larry_T y = Ok y' <-> axes_permuted (reverse (seq 0 (length (llabel y)))) y y'.
Proof.
  intros Hv. destruct (T_permutes y Hv) as (z & Hz & Hp). rewrite Hz. split; [by intros [= <-]|]. intros H. f_equal. by eapply axes_unique.
Qed.
Lemma T_axis y y' axis ax : valid y -> larry_T y = Ok y' -> axis_is y axis ax -> axis_is y' (-1 - axis) (length (llabel y) - 1 - ax).
Proof.
  intros Hv HT [Hlt Hax]. destruct (larry_T_spec y Hv) as (z & Hz & _ & _ & Hl & _). assert (z = y') as -> by congruence.
  unfold axis_is. rewrite Hl, reverse_length. split; [lia|]. destruct Hax as [-> | ->]; lia.
Qed.
Lemma order_left_rev n ax : ax < n -> order_left (n - 1 - ax) ax (reverse (seq 0 n)) = reverse (seq 0 (n - 1)).
Proof.
  intros Hax. assert (Hk : reverse (seq 0 n) !! (n - 1 - ax) = Some ax) by (rewrite rev_lookup by lia; f_equal; lia).
  pose proof (order_left_length _ _ _ _ (rev_perm n) Hk) as Hl.
  apply list_ext_len; [rewrite Hl, reverse_length, seq_length; lia|]. intros j Hj. rewrite Hl in Hj.
  destruct (order_left_entry _ _ _ _ j (rev_perm n) Hk Hj) as (i & Hi & Hne & Hin & ->). rewrite rev_lookup by lia. f_equal.
  rewrite rev_lookup in Hi by (case_decide; lia). injection Hi as <-. unfold axis_left. repeat case_decide; lia.
Qed.
Lemma both_impl {A} (R R' : A -> A -> Prop) r r' : both R r r' -> (forall a b, r = Ok a -> R a b -> R' a b) -> both R' r r'.
Proof. destruct r, r'; simpl; eauto. Qed.
Lemma axes_length o y y' : axes_permuted o y y' -> length o = length (llabel y).
Proof. intros (Ho & _). by apply perm_length. Qed.
Lemma T_from n z z' : valid z -> axes_permuted (reverse (seq 0 n)) z z' -> larry_T z = Ok z'.
Proof.
  intros Hv H. apply T_axes; [done|]. pose proof (axes_length _ _ _ H) as E. rewrite reverse_length, seq_length in E. by rewrite <-E.
Qed.
Lemma T_cells f y y' : cell_method f -> valid y -> larry_T y = Ok y' -> both (fun z z' => larry_T z = Ok z') (f y) (f y').
Proof.
  intros Hf Hv HT. eapply both_impl; [apply axes_cells; [done|done|by apply T_axes]|]. intros z z' Hz. apply T_from. by eapply cell_valid.
Qed.
Lemma T_lanes f y y' axis ax : lane_method f -> valid y -> larry_T y = Ok y' -> axis_is y axis ax ->
  both (fun z z' => larry_T z = Ok z') (f y axis) (f y' (-1 - axis)%Z).
Proof.
  intros Hf Hv HT Hax. eapply both_impl; [eapply axes_lanes; [done|done|by apply T_axes|done|by eapply T_axis|]|].
  - rewrite rev_lookup by (destruct Hax; lia). f_equal. destruct Hax; lia.
  - intros z z' Hz. apply T_from. by eapply lane_valid.
Qed.
Lemma T_reductions f y y' axis ax : reduce_method f -> valid y -> larry_T y = Ok y' -> axis_is y axis ax -> both out_T (f y axis) (f y' (-1 - axis)%Z).
Proof.
  intros Hf Hv HT Hax. eapply both_impl; [eapply axes_reductions; [done|done|by apply T_axes|done|by eapply T_axis|]|].
  - rewrite rev_lookup by (destruct Hax; lia). f_equal. destruct Hax; lia.
  - intros [z|v] [z'|v'] Hz; try done. simpl. rewrite order_left_rev by (by destruct Hax). apply T_from. by eapply reduce_method_valid.
Qed.

(** * Exchanging two axes *)
Lemma swap_perm i j n : i < n -> j < n -> perm_of (swap_total i j (seq 0 n)) n.
Proof.
  intros Hi Hj. assert (Hl : forall k, k < n -> swap_total i j (seq 0 n) !! k = Some (if decide (k = i) then j else if decide (k = j) then i else k)).
  { intros k Hk. rewrite swap_total_lookup by (by rewrite seq_length). apply lookup_seq_lt. repeat case_decide; lia. }
  assert (Hlen : length (swap_total i j (seq 0 n)) = n) by (by rewrite swap_total_length, seq_length).
  unfold perm_of. symmetry. apply submseteq_Permutation_length_eq; [by rewrite Hlen, seq_length|]. apply NoDup_submseteq; [apply NoDup_seq|].
  intros x [_ Hx]%elem_of_seq. apply elem_of_list_lookup. exists (if decide (x = i) then j else if decide (x = j) then i else x). rewrite Hl by (repeat case_decide; lia). f_equal. repeat case_decide; lia.
Qed.
Lemma permute_swap {A} i j (l : list A) : i < length l -> j < length l -> permute (swap_total i j (seq 0 (length l))) l = swap_total i j l.
Proof.
  intros Hi Hj. pose proof (swap_perm i j (length l) Hi Hj) as Hp. apply list_ext_len; [by rewrite swap_total_length, permute_length|]. intros k Hk. rewrite permute_length in Hk by done.
  rewrite swap_total_lookup by done. apply permute_lookup_Some; [done|]. rewrite swap_total_lookup by (by rewrite seq_length). apply lookup_seq_lt. repeat case_decide; lia.
Qed.
Lemma swapaxes_permutes y a1 a2 i j : valid y -> axis_is y a1 i -> axis_is y a2 j ->
  exists y' o, swapaxes y a1 a2 = Ok y' /\ axes_permuted o y y' /\ forall k, k < length (llabel y) -> o !! k = Some (if decide (k = i) then j else if decide (k = j) then i else k).
Proof.
  intros Hv Hi Hj. destruct (swapaxes_spec y a1 a2 i j Hv (proj2 (py_axis_is _ _ _) Hi) (proj2 (py_axis_is _ _ _) Hj)) as (y' & Hy & Hv' & Hd & Hl & Hc).
  destruct Hi as [Hi _], Hj as [Hj _].
  exists y', (swap_total i j (seq 0 (length (llabel y)))). split; [done|]. split.
  - split_and!; [by apply swap_perm|done|done|by rewrite permute_swap|]. intros ls Hg. pose proof (Forall2_length _ _ _ Hg) as E. rewrite <-E, permute_swap by (by rewrite E). by apply Hc.
  - intros k Hk. rewrite swap_total_lookup by (by rewrite seq_length). apply lookup_seq_lt. repeat case_decide; lia.
Qed.
