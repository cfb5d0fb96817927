(** Every method keeps larrys well formed. *)
From Verif Require Export SpecSession LaneFacts NumericFacts ReduceFacts CutFacts CreateFacts ResampleFacts ConvertFacts
  StackFacts SortbyFacts CovFacts IndexGet IndexSet IndexLix FarrayFacts RankLarry QuantileFacts MoveFacts GroupFacts
  AlignMore OpsBinary MiscFacts CsvFacts MovingFacts AstypeFacts.

(** ** Arrays *)
Lemma build_nda dt sh f b :
  build sh f = Some b -> (forall idx v, f idx = Some v -> has_dtype dt v = true) -> nda_wf (Nda dt b) /\ shape b = sh.
Proof.
  intros Hb Ht. pose proof Hb as (Hs & Hw & Hg)%build_Some. split; [|done]. apply nda_wf_get; [done|].
  intros idx v Hv. simpl in *. apply (build_get _ _ _ _ _ Hb) in Hv as [_ Hv]. eauto.
Qed.
Lemma data_valid y x : valid y -> nda_wf x -> nd_shape x = lshape y -> valid (Larry x (llabel y)).
Proof. intros (_ & Hne & Hs & Hn) Hx Hsh. split_and!; [done..| |done]. simpl. unfold lshape. simpl. by rewrite Hsh. Qed.
Lemma larr_nda y : valid y -> nda_wf (Nda (ldtype y) (larr y)).
Proof. intros [H _]. unfold ldtype, larr. by destruct (lx y). Qed.
Lemma axis_dropped_valid y ax x :
  valid y -> nda_wf x -> nd_shape x = remove_at ax (lshape y) -> nd_shape x <> [] -> valid (Larry x (remove_at ax (llabel y))).
Proof.
  intros (_ & Hne & Hs & Hn) Hx Hsh Hx0.
  assert (Hl : length <$> remove_at ax (llabel y) = remove_at ax (lshape y)) by (rewrite remove_at_fmap; by f_equal).
  split_and!; [done|..].
  - simpl. intros E. rewrite E in Hl. simpl in Hl. congruence.
  - unfold lshape. simpl. congruence.
  - simpl. rewrite Forall_forall in *. intros l Hl'. apply Hn. unfold remove_at in Hl'. rewrite delete_take_drop in Hl'.
    apply elem_of_app in Hl' as [H|H]; [by eapply elem_of_take in H as (? & ? & _); eapply elem_of_list_lookup_2|].
    apply elem_of_list_lookup in H as [k Hk]. rewrite lookup_drop in Hk. by eapply elem_of_list_lookup_2.
Qed.
Lemma amap_nda dt dt' f (a : arr val) :
  nda_wf (Nda dt a) -> (forall v, has_dtype dt v = true -> has_dtype dt' (f v) = true) -> nda_wf (Nda dt' (amap f a)).
Proof.
  intros [Hw Ht] Hf. split; [by apply amap_wf|]. simpl in *. apply Forall_fmap. eapply Forall_impl; [exact Ht|]. intros v Hv. by apply Hf.
Qed.
Lemma lane_typed dt (a : arr val) ax idx l :
  nda_wf (Nda dt a) -> lane a ax idx = Some l -> Forall (fun v => has_dtype dt v = true) l.
Proof.
  intros Ha Hl. apply lane_Some in Hl as (n & Hn & Hlen & Hg). apply Forall_lookup. intros k v Hk.
  rewrite <-Hg in Hk by (rewrite <-Hlen; by eapply lookup_lt_Some). exact (nda_wf_typed (Nda dt a) _ _ Ha Hk).
Qed.
Lemma along_nda dt dt' f (a b : arr val) ax :
  nda_wf (Nda dt a) -> along f a ax = Some b ->
  (forall l, Forall (fun v => has_dtype dt v = true) l -> Forall (fun v => has_dtype dt' v = true) (f l)) ->
  nda_wf (Nda dt' b) /\ shape b = shape a.
Proof.
  intros Ha Hb Hf. eapply build_nda; [exact Hb|]. intros idx v Hv. simpl in Hv.
  destruct (lane a ax idx) as [l|] eqn:El; [|done]. simpl in Hv. destruct (idx !! ax) as [k|]; [|done]. simpl in Hv.
  specialize (Hf l (lane_typed _ _ _ _ _ Ha El)). by eapply Forall_lookup_1 in Hf.
Qed.
Lemma reduce_nda dt dt' f (a b : arr val) ax :
  nda_wf (Nda dt a) -> reduce f a ax = Some b ->
  (forall l, Forall (fun v => has_dtype dt v = true) l -> has_dtype dt' (f l) = true) ->
  nda_wf (Nda dt' b) /\ shape b = remove_at ax (shape a) /\ ax < length (shape a).
Proof.
  intros Ha Hb Hf. unfold reduce, axlen in Hb. destruct (shape a !! ax) as [n|] eqn:En; [|done]. simpl in Hb.
  apply (build_nda dt') in Hb as [Hb Hs].
  - split_and!; [done..|]. by eapply lookup_lt_Some.
  - intros idx v Hv. destruct (lane a ax (insert_at ax 0 idx)) as [l|] eqn:El; [|done]. simpl in Hv. injection Hv as <-.
    apply Hf. by eapply lane_typed.
Qed.
Lemma putmask_scalar_nda x m v x' :
  nda_wf x -> arr_wf m -> shape m = nd_shape x -> putmask_scalar x m v = Ok x' ->
  nda_wf x' /\ nd_shape x' = nd_shape x /\ nd_dtype x' = nd_dtype x.
Proof.
  intros [Hw Ht] Hm Hs H. unfold putmask_scalar in H. apply bind_ok in H as (r & Hr & [= <-]). apply store_typed in Hr.
  split_and!; simpl.
  - split; simpl; [by apply azip_wf|]. unfold azip. simpl. apply Forall_forall. intros w Hw'.
    apply elem_of_lookup_zip_with in Hw' as (k & b & u & -> & _ & Hu). destruct b; [done|]. by eapply Forall_lookup_1 in Ht.
  - unfold nd_shape. simpl. exact Hs.
  - done.
Qed.
Lemma full_nda dt sh v : has_dtype dt v = true -> nda_wf (Nda dt (full sh v)) /\ shape (full sh v) = sh.
Proof. intros Hv. split; [|done]. split; [apply full_wf|]. simpl. by apply Forall_replicate. Qed.
Lemma test_mask_nda p x m : nda_wf x -> test_mask p x = Ok m -> arr_wf m /\ shape m = nd_shape x /\ arithmetic (nd_dtype x).
Proof.
  intros [Hw _] H. unfold test_mask in H. destruct (nd_dtype x) eqn:E; try done; injection H as <-;
    (split_and!; [by apply amap_wf|done|unfold arithmetic; naive_solver]).
Qed.

(** ** Labels and axes *)
Lemma copy_valid y : valid y -> valid (larry_copy y).
Proof. done. Qed.
Lemma set_valid y ls v z : valid y -> larry_set y ls v = Ok z -> valid z.
Proof. intros Hv H. by apply larry_set_spec in H as (? & _). Qed.
Lemma fill_valid y v z : valid y -> larry_fill y v = Ok z -> valid z.
Proof. intros Hv H. by apply larry_fill_spec in H as (? & _). Qed.
Lemma maplabel_valid y f axis z :
  valid y -> maplabel y f axis = Ok z ->
  (forall ax l, axis_selected y axis ax -> llabel y !! ax = Some l -> forall a b, a ∈ l -> b ∈ l -> f a = f b -> a = b) -> valid z.
Proof.
  intros Hv H Hinj. destruct axis as [a|].
  - apply maplabel_axis in H as (ax & l & Ha & Hl & _ & _ & Hval & _); [|done]. apply Hval. apply py_axis_is in Ha. by apply (Hinj ax).
  - apply maplabel_all in H as (_ & _ & Hval & _); [|done]. apply Hval, Forall_lookup. intros ax l Hl.
    apply (Hinj ax); [|done]. simpl. by eapply lookup_lt_Some.
Qed.
Lemma take_valid y ids axis z : valid y -> larry_take y ids axis = Ok z -> valid z.
Proof. intros Hv H. by apply larry_take_spec in H as (? & ? & ? & _ & _ & _ & ? & _). Qed.
Lemma empty_larry_valid : valid empty_larry.
Proof. split_and!; [|done..|]; [split; [done|constructor]|]. repeat constructor. Qed.
Lemma keep_label_valid y op axis z : valid y -> keep_label y op axis = Ok z -> valid z.
Proof.
  intros Hv H. destruct axis as [a|]; [|done]. apply keep_label_spec in H as (ax & l & _ & _ & kept & _ & _ & Hk & He); [|done].
  destruct (decide (kept = [])) as [E|E]; [|by apply Hk]. rewrite (He E). apply empty_larry_valid.
Qed.
Lemma pull_valid y name axis z : valid y -> pull y name axis = Ok (OLar z) -> valid z.
Proof.
  intros Hv H. destruct axis as [a|]; [|done].
  destruct (decide (1 < lndim y)) as [Hn|Hn].
  - destruct (pull_spec _ _ _ _ Hv Hn H) as (ax & l & Ha & Hl & _ & Hk).
    destruct Hk as (z' & [= ->] & ? & _); [|done]. intros E. unfold pull in H. simpl in H. rewrite Ha in H. simpl in H.
    apply bind_ok in H as (i & Hi & H). apply labelindex_exact in Hi as (ax' & l' & Ha' & Hl' & Hi); [|done].
    assert (ax' = ax) as -> by congruence. apply bind_ok in H as (x & Hx & H). rewrite decide_False in Hx by lia.
    destruct (pick_axis_ex y ax l' i name Hv Hl' Hi) as (b & Hb & Hs). apply of_opt_ok in Hx.
    assert (x = b) as -> by congruence. rewrite <-(valid_shape y Hv), <-remove_at_fmap, E in Hs. rewrite decide_True in H by done.
    by apply bind_ok in H as (? & _ & ?).
  - assert (lndim y = 1). { pose proof (valid_nonempty y Hv). rewrite <-(valid_ndim y Hv) in *. destruct (llabel y); simpl in *; [done|lia]. }
    by apply pull_1d in H as (v & ? & _).
Qed.
Lemma lag_valid y n axis z : valid y -> lag y n axis = Ok z -> valid z.
Proof.
  intros Hv H. destruct axis as [a|]; [|done]. destruct (decide (n = 0)%Z) as [->|Hn].
  { unfold lag in H. simpl in H. injection H as <-. done. }
  assert (exists ax l, py_axis y a = Ok ax /\ llabel y !! ax = Some l) as (ax & l & Ha & Hl).
  { assert (exists ax, py_axis y a = Ok ax) as [ax Ha].
    { unfold lag in H. simpl in H. case_decide as E1; [|case_decide as E2; [|lia]];
        apply bind_ok in H as (ax & Ha & _); eauto. }
    destruct (axis_label_exists _ _ _ Ha) as (l & _ & Hl). eauto. }
  destruct (decide (0 < n)%Z) as [E|E].
  - destruct (lag_pos y (Z.to_nat n) a ax l Hv) as (z' & Hz & ? & _); [lia|done..|]. rewrite Z2Nat.id in Hz by lia. congruence.
  - destruct (lag_neg y (Z.to_nat (- n)) a ax l Hv) as (z' & Hz & ? & _); [lia|done..|].
    rewrite Z2Nat.id in Hz by lia. rewrite Z.opp_involutive in Hz. congruence.
Qed.
Lemma flipaxis_valid y axis z : valid y -> flipaxis y axis = Ok z -> valid z.
Proof.
  intros Hv H. destruct axis as [a|].
  - assert (exists ax, py_axis y a = Ok ax) as [ax Ha].
    { unfold flipaxis in H. simpl in H. unfold flip_one in H. destruct (py_axis y a); [eauto|done]. }
    destruct (axis_label_exists _ _ _ Ha) as (l & _ & Hl). destruct (flipaxis_some y a ax l Hv Ha Hl) as (z' & Hz & ? & _). congruence.
  - destruct (flipaxis_none y Hv) as (z' & Hz & ? & _). congruence.
Qed.
Lemma T_valid y z : valid y -> larry_T y = Ok z -> valid z.
Proof. intros Hv H. destruct (larry_T_spec y Hv) as (z' & Hz & ? & _). congruence. Qed.
Lemma swapaxes_valid y a b z : valid y -> swapaxes y a b = Ok z -> valid z.
Proof.
  intros Hv H. pose proof H as H'. unfold swapaxes in H. apply bind_ok in H as (i & Hi & H). apply bind_ok in H as (j & Hj & _).
  destruct (swapaxes_spec y a b i j Hv Hi Hj) as (z' & Hz & ? & _). congruence.
Qed.
Lemma squeeze_valid y : valid y -> (exists n, n ∈ lshape y /\ n <> 1) -> valid (squeeze y).
Proof.
  intros Hv (n & Hn & H1). destruct (squeeze_spec y Hv) as (_ & _ & Hs & _). apply Hs.
  rewrite <-(valid_shape y Hv) in Hn. apply elem_of_list_fmap in Hn as (l & -> & Hl). eauto.
Qed.
Lemma insertaxis_valid y axis name z : valid y -> insertaxis y axis name = Ok z -> valid z.
Proof.
  intros Hv H. destruct axis as [a|]; [|done]. unfold insertaxis in H. cbn -[expand_dims insert_at make] in H. apply make_some_valid in H as [-> H]; [done|].
  destruct Hv as ([Hw Ht] & _). split; [|done]. unfold arr_wf, expand_dims. cbn [shape data nd_arr]. unfold asize. cbn [shape]. rewrite size_of_insert_one. exact Hw.
Qed.
Lemma morph_valid y label axis z : valid y -> morph y label axis = Ok z -> valid z.
Proof. intros Hv H. apply morph_spec in H as (ax & old & _ & _ & _ & _ & (H & _) & _); done. Qed.
Lemma morph_like_valid y l z : valid y -> valid l -> morph_like y l = Ok z -> valid z.
Proof.
  intros Hv Hl H. destruct (decide (lndim y = lndim l)) as [E|E].
  - destruct (morph_like_spec y l Hv Hl E) as (z' & Hz & _ & ? & _). congruence.
  - unfold morph_like in H. rewrite decide_True in H by done. done.
Qed.
Lemma sortaxis_valid y axis r z : valid y -> sortaxis y axis r = Ok z -> valid z.
Proof. intros Hv H. by apply sortaxis_full in H as (? & _). Qed.
Lemma merge_valid y1 y2 u z : valid y1 -> valid y2 -> larry_merge y1 y2 u = Ok z -> valid z.
Proof.
  intros H1 H2 H. unfold larry_merge in H. case_decide as Hn; [done|]. assert (lndim y1 = lndim y2) as Hnd by (by destruct (decide (lndim y1 = lndim y2))).
  apply bind_ok in H as ([z1 z2] & Hst & H). pose proof (merge_align_spec _ _ _ _ H1 H2 Hnd Hst) as Hal.
  pose proof (aligned_same_label _ _ _ _ (fun l1 l2 r => union_label l1 l2 r) H1 H2 Hnd Hal) as Hlab.
  destruct Hal as ((V1 & _) & (V2 & _) & _).
  repeat case_decide; try done.
  - case_match; [done|]. case_match; [|by injection H as <-]. apply bind_ok in H as (x & Hx & [= <-]).
    apply (putmask_spec z1 z2 x V1 V2 Hlab) in Hx. naive_solver.
  - by case_match.
Qed.
Lemma nan_replace_valid y v z : valid y -> nan_replace y v = Ok z -> valid z.
Proof. intros Hv H. by apply nan_replace_spec in H as (? & _). Qed.
Lemma ismissing_valid y : valid y -> valid (larry_ismissing y).
Proof. intros Hv. by destruct (larry_ismissing_spec y Hv). Qed.

(** ** Operators *)
Lemma arith_valid op y z r : valid y -> valid z -> larry_arith op y (OpLarry z) = Ok r -> valid r.
Proof. intros H1 H2 H. apply arith_larry in H; naive_solver. Qed.
Lemma logic_valid op y z r : valid y -> valid z -> larry_logic op y (OpLarry z) = Ok r -> valid r.
Proof. intros H1 H2 H. apply logic_larry in H; naive_solver. Qed.
Lemma compare_valid op y z r :
  valid y -> valid z -> SpecOps.same_kind (ldtype y) (ldtype z) -> larry_compare op y (OpLarry z) = Ok (OLar r) -> valid r.
Proof. intros H1 H2 Hk H. apply compare_larry in H as (? & [= ->] & _ & ? & _); done. Qed.
Lemma pointwise_valid f D R y a r :
  pointwise f D R -> valid y -> nda_wf a -> fits (nd_shape a) (lshape y) -> f (lx y) a = Ok r -> valid (Larry r (llabel y)).
Proof. intros Hp Hv Ha Hf H. by eapply pointwise_array in H as (_ & ? & _). Qed.
Lemma np_compare_valid op y a x :
  valid y -> nda_wf a -> fits (nd_shape a) (lshape y) -> np_compare op (lx y) a = Ok (inl x) -> valid (Larry x (llabel y)).
Proof.
  intros Hv Ha Hf H. eapply (pointwise_valid _ _ _ _ _ _ (cmp_pointwise op) Hv Ha Hf). unfold np_compare in H.
  destruct (nd_dtype (lx y)), (nd_dtype a), op; try done; try (destruct (elementwise _ _ _ _) as [?|[]]; try done; by injection H as <-).
Qed.
Lemma arith_arr_valid op y a z : valid y -> nda_wf a -> fits (nd_shape a) (lshape y) -> larry_arith op y (OpArr a) = Ok z -> valid z.
Proof. intros Hv Ha Hf H. by apply arith_array in H as (? & _). Qed.
Lemma logic_arr_valid op y a z : valid y -> nda_wf a -> fits (nd_shape a) (lshape y) -> larry_logic op y (OpArr a) = Ok z -> valid z.
Proof. intros Hv Ha Hf H. by apply logic_array in H as (? & _). Qed.
Lemma compare_arr_valid op y a z :
  valid y -> nda_wf a -> fits (nd_shape a) (lshape y) -> larry_compare op y (OpArr a) = Ok (OLar z) -> valid z.
Proof. intros Hv Ha Hf H. apply bind_ok in H as ([x|b] & Hx & [= <-]). by eapply np_compare_valid. Qed.
Lemma neg_valid y z : valid y -> larry_neg y = Ok z -> valid z.
Proof. intros Hv H. by apply neg_spec in H as (? & _). Qed.
Lemma rarith_arr_valid op y a z : valid y -> nda_wf a -> fits (nd_shape a) (lshape y) -> larry_rarith op y (OpArr a) = Ok z -> valid z.
Proof.
  intros Hv Ha Hf H. destruct op; simpl in H; try (by eapply arith_arr_valid).
  - apply bind_ok in H as (w & Hw & H). eapply neg_valid; [|done]. by eapply arith_arr_valid.
  - by eapply rdivide_array in H as (? & _).
  - by eapply rdivide_array in H as (? & _).
  - by eapply rdivide_array in H as (? & _).
Qed.
Lemma arith_scalar_valid op y v z : valid y -> larry_arith op y (OpScalar v) = Ok z -> valid z.
Proof. intros Hv H. by apply arith_scalar in H as (? & _). Qed.
Lemma logic_scalar_valid op y v z : valid y -> larry_logic op y (OpScalar v) = Ok z -> valid z.
Proof. intros Hv H. by apply logic_scalar in H as (? & _). Qed.
Lemma rarith_scalar_valid op y v z : valid y -> larry_rarith op y (OpScalar v) = Ok z -> valid z.
Proof.
  intros Hv H. destruct op; simpl in H; try (by eapply arith_scalar_valid).
  - apply bind_ok in H as (w & Hw & H). eapply neg_valid; [|done]. by eapply arith_scalar_valid.
  - apply bind_ok in H as (a & Ha & H). apply scalar_nda_spec in Ha as (Ha & Hs & _).
    eapply (rdivide_array ADiv y a z Hv Ha); [rewrite Hs; apply fits_nil|]. exact H.
  - apply bind_ok in H as (a & Ha & H). apply scalar_nda_spec in Ha as (Ha & Hs & _).
    eapply (rdivide_array AFloorDiv y a z Hv Ha); [rewrite Hs; apply fits_nil|]. exact H.
  - apply bind_ok in H as (a & Ha & H). apply scalar_nda_spec in Ha as (Ha & Hs & _).
    eapply (rdivide_array AOldDiv y a z Hv Ha); [rewrite Hs; apply fits_nil|]. exact H.
Qed.
Lemma compare_scalar_valid op y v z : valid y -> larry_compare op y (OpScalar v) = Ok (OLar z) -> valid z.
Proof.
  intros Hv H. apply bind_ok in H as (a & Ha & H). apply scalar_nda_spec in Ha as (Ha & Hs & _).
  apply bind_ok in H as ([x|b] & Hx & [= <-]). eapply np_compare_valid; [done..| |done]. rewrite Hs. apply fits_nil.
Qed.
Lemma abs_valid y z : valid y -> larry_abs y = Ok z -> valid z.
Proof. intros Hv H. by apply abs_spec_raw in H as (? & _). Qed.
Lemma sign_valid y z : valid y -> larry_sign y = Ok z -> valid z.
Proof. intros Hv H. by apply sign_spec_raw in H as (? & _). Qed.
Lemma test_valid p y z : valid y -> (x ← np_test p (lx y); Ok (Larry x (llabel y))) = Ok z -> valid z.
Proof. intros Hv H. by apply larry_test_spec in H as (_ & ? & _). Qed.
Lemma invert_valid y z : valid y -> larry_invert y = Ok z -> valid z.
Proof. intros Hv H. by apply invert_spec in H as (_ & ? & _). Qed.
Lemma binaryop_valid op y1 y2 j cast m1 m2 x labels L :
  valid y1 -> valid y2 -> (forall js, joins_are (lndim y2) j js -> JSkip ∉ js) ->
  binaryop (np_arith op) y1 y2 j cast m1 m2 = Ok (x, labels) -> mapM (fun o : option (list lab) => o) labels = Some L -> valid (Larry x L).
Proof.
  intros H1 H2 Hj H HL. assert (exists js, joins_are (lndim y2) j js) as [js Hjs].
  { unfold binaryop in H. apply bind_ok in H as (st & Hst & _). by destruct (align_raw_inv _ _ _ _ _ H1 H2 Hst) as (_ & js & ? & _); exists js. }
  destruct (binaryop_spec _ _ _ _ _ _ _ _ _ _ H1 H2 H Hjs (Hj _ Hjs)) as
    (z1 & z2 & w1 & w2 & _ & _ & _ & _ & -> & _ & _ & _ & _ & _ & V1 & V2 & L1 & L2 & _ & _ & _ & Hf).
  assert (L = llabel z1) as ->. { rewrite mapM_fmap_Some in HL by done. by injection HL. }
  rewrite <-L1. eapply (pointwise_valid _ _ _ _ _ _ (np_arith_pointwise op) V1); [apply V2| |exact Hf].
  rewrite <-(valid_shape _ V1). pose proof (valid_shape _ V2) as E. unfold lshape in E. rewrite <-E, L1, L2.
  split; [done|]. rewrite Nat.sub_diag, drop_0. apply Forall2_same_length_lookup. split; [done|]. intros. right. congruence.
Qed.

(** ** Numbers *)
Lemma cum_valid op y axis z : valid y -> larry_cum op y axis = Ok z -> valid z.
Proof. intros Hv H. by apply larry_cum_spec in H as (? & ? & _ & _ & _ & ? & _). Qed.
Lemma clip_valid y lo hi z : valid y -> larry_clip y lo hi = Ok z -> valid z.
Proof.
  intros Hv H. unfold larry_clip in H. apply bind_ok in H as (l & _ & H). apply bind_ok in H as (h & _ & H). case_match; [done|].
  pose proof (proj1 Hv) as Hw. unfold ldtype in H. destruct (lx y) as [dt a] eqn:E. simpl in H.
  destruct dt; try done.
  - assert (z = Larry (Nda DFloat (amap (λ v, match v with VFloat n => VFloat (clip_num l h n) | _ => v end) (larr y))) (llabel y)) as ->.
    { destruct lo, hi; by injection H as <-. }
    apply data_valid; [done| |by unfold lshape, larr; rewrite E].
    eapply amap_nda; [unfold larr; rewrite E; exact Hw|]. by intros [].
  - destruct lo, hi; try done. injection H as <-. apply data_valid; [done| |by unfold lshape, larr; rewrite E].
    eapply amap_nda; [unfold larr; rewrite E; exact Hw|]. by intros [].
Qed.
Lemma as_out_valid y ax x z :
  valid y -> nda_wf x -> nd_shape x = remove_at ax (lshape y) -> as_out x (remove_at ax (llabel y)) = Ok (OLar z) -> valid z.
Proof.
  intros Hv Hx Hs H. unfold as_out in H. destruct (nd_shape x) as [|n sh] eqn:E; [by apply bind_ok in H as (? & _ & ?)|].
  injection H as <-. apply axis_dropped_valid; [done..|congruence|congruence].
Qed.
Lemma red_lane_typed op dt dt' l : red_dtype op dt = Ok dt' -> has_dtype dt' (red_lane op dt l) = true.
Proof. destruct dt, op; simpl; intros H; try done; by injection H as <-. Qed.
Lemma reduce_valid op y axis z : valid y -> larry_reduce op y axis = Ok (OLar z) -> valid z.
Proof.
  intros Hv H. unfold larry_reduce in H. case_decide as Hz.
  - destruct axis as [a|]; [|done]. apply bind_ok in H as (ax & Ha & H). destruct (remove_at ax (lshape y)) as [|n sh] eqn:E; [done|].
    apply bind_ok in H as (v & Hst & [= <-]). apply store_typed in Hst.
    destruct (full_nda _ (n :: sh) _ Hst). apply axis_dropped_valid; done.
  - apply bind_ok in H as (dt & Hdt & H). destruct axis as [a|]; [|done]. apply bind_ok in H as (ax & Ha & H).
    apply bind_ok in H as (b & Hb & H). apply of_opt_ok in Hb.
    eapply (reduce_nda (ldtype y) dt) in Hb as (Hw & Hs & _); [|by apply larr_nda|intros l _; by apply red_lane_typed].
    by eapply as_out_valid.
Qed.
Lemma std_valid sqrt y axis ddof z : valid y -> larry_std sqrt y axis ddof = Ok (OLar z) -> valid z.
Proof.
  intros Hv H. unfold larry_std in H. apply bind_ok in H as ([w|v] & Hr & [= H]); [|by case_decide].
  apply reduce_valid in Hr; [|done]. case_decide; [by injection H as <-|]. injection H as <-.
  apply data_valid; [done| |done]. eapply amap_nda; [by apply larr_nda|]. by intros [].
Qed.
Lemma prod_valid y axis z : valid y -> larry_prod y axis = Ok (OLar z) -> valid z.
Proof.
  intros Hv H. unfold larry_prod in H. apply bind_ok in H as (idx & Hidx & H).
  destruct (test_mask_nda _ _ _ (proj1 Hv) Hidx) as (Hwi & Hsi & _). apply bind_ok in H as (x & Hx & H).
  destruct (putmask_scalar_nda _ _ _ _ (proj1 Hv) Hwi Hsi Hx) as (Hwx & Hsx & _). apply bind_ok in H as (r & Hr & H).
  assert (Hv' : valid (Larry x (llabel y))) by (by apply data_valid).
  assert (Hrv : forall w, r = OLar w -> valid w) by (intros w ->; by apply reduce_valid in Hr).
  destruct axis as [a|]; [|case_match; [done|injection H as ->; by apply Hrv]].
  apply bind_ok in H as (ax & Ha & H). apply bind_ok in H as (m & Hm & H). apply of_opt_ok in Hm.
  apply reduce_Some in Hm as (Hsm & Hwm & _); [|done].
  destruct (shape m) as [|n sh] eqn:Esm; [case_match; [done|injection H as ->; by apply Hrv]|].
  destruct r as [w|v]; [|done]. specialize (Hrv w eq_refl). apply bind_ok in H as (x' & Hx' & [= <-]).
  assert (Hs' : lshape w = shape m).
  { rewrite <-(valid_shape w Hrv). apply of_opt_ok in Ha. unfold larry_reduce in Hr.
    assert (llabel w = remove_at ax (llabel y)) as ->; [|change (length <$> remove_at ax (llabel y)) with (fmap length (remove_at ax (llabel y))); rewrite remove_at_fmap, Esm, Hsm, Hsi; f_equal; apply (valid_shape y Hv)].
    assert (lndim (Larry x (llabel y)) = lndim y) as En by (unfold lndim, nd_ndim; simpl; unfold lshape; simpl; by rewrite Hsx).
    case_decide.
    - rewrite En, Ha in Hr. simpl in Hr. case_match; [done|]. by apply bind_ok in Hr as (? & _ & [= <-]).
    - apply bind_ok in Hr as (dt & _ & Hr). rewrite En, Ha in Hr. simpl in Hr. apply bind_ok in Hr as (b & _ & Hr). unfold as_out in Hr.
      case_match; [by apply bind_ok in Hr as (? & _ & ?)|]. by injection Hr as <-. }
  destruct (putmask_scalar_nda _ _ _ _ (proj1 Hrv) Hwm (eq_trans Esm (eq_sym (eq_trans Hs' Esm))) Hx') as (? & ? & _).
  by apply data_valid.
Qed.
Lemma lastrank_valid y a z : valid y -> larry_lastrank y a = Ok (OLar z) -> valid z.
Proof.
  intros Hv H. unfold larry_lastrank in H. apply bind_ok in H as (ax & Ha & H). case_decide as Hz.
  - destruct (remove_at ax (lshape y)) as [|n sh] eqn:E; [done|].
    apply bind_ok in H as (v & Hst & [= <-]). apply store_typed in Hst.
    destruct (full_nda _ (n :: sh) _ Hst). apply axis_dropped_valid; done.
  - apply bind_ok in H as (_ & _ & H). apply bind_ok in H as (b & Hb & H). apply of_opt_ok in Hb.
    eapply (reduce_nda (ldtype y) DFloat) in Hb as (Hw & Hs & _); [|by apply larr_nda|done].
    by eapply as_out_valid.
Qed.
Lemma push_valid y n a z : valid y -> larry_push y n a = Ok z -> valid z.
Proof.
  intros Hv H. pose proof H as H'. unfold larry_push in H.
  assert (arithmetic (ldtype y)) as Hd by (unfold arithmetic; destruct (ldtype y); naive_solver).
  assert (exists ax, axis_is y a ax) as [ax Ha].
  { destruct (ldtype y); try done; apply bind_ok in H as (ax & Ha%of_opt_ok & _); exists ax; by apply axis_is_py. }
  destruct (larry_push_total y n a ax Hv Hd Ha) as (z' & Hz & ? & _). congruence.
Qed.

(** ** Cutting *)
Lemma take_ids_nodup (l l' : list lab) ids : NoDup l -> NoDup ids -> mapM (l !!.) ids = Some l' -> NoDup l'.
Proof.
  intros HN Hi Hl. eapply (mapM_index_inj l ids l'); done.
Qed.
Lemma positions_nodup {A} (f : A -> res bool) l idx : positions f l = Ok idx -> NoDup idx.
Proof.
  intros (Hs & _)%positions_ok. clear -Hs. induction Hs as [|k l Hs IH Hf]; constructor; [|done].
  intros Hk. eapply Forall_forall in Hf; [|exact Hk]. lia.
Qed.
Lemma cut_slices_valid p cut y z : valid y -> cut_slices p cut y = Ok z -> valid z.
Proof.
  intros Hv H. unfold cut_slices in H. apply bind_ok in H as (ids & Hids & H). apply bind_ok in H as (L & HL & H).
  apply bind_ok in H as (b & Hb & [= <-]). apply of_opt_ok in Hb.
  assert (Hnd : Forall NoDup ids).
  { apply mapR_ok in Hids. eapply Forall2_Forall_r; [exact Hids|]. apply Forall_forall. intros ax _ i Hi.
    apply bind_ok in Hi as (n & _ & Hi). destruct (cut ax); [|injection Hi as <-; apply NoDup_seq].
    apply bind_ok in Hi as (m & _ & Hi). unfold slice_test in Hi. apply bind_ok in Hi as (k & _ & Hi). by apply positions_nodup in Hi. }
  assert (Hlen : length (llabel y) = length ids).
  { apply mapR_length in Hids. rewrite seq_length in Hids. rewrite Hids. by apply valid_ndim. }
  apply (mapR_zip_Forall3 (fun l i => of_opt IndexError (mapM (l !!.) i))) in HL; [|done].
  pose proof (valid_nodup y Hv) as HN.
  assert (Hsh : length <$> L = length <$> ids /\ Forall NoDup L).
  { clear -HL HN Hnd. induction HL as [|l i l' ls is ls' Hm HL IH]; [done|]. inversion_clear HN. inversion_clear Hnd.
    destruct IH as [IH1 IH2]; [done..|]. apply of_opt_ok in Hm. split; [|constructor; [by eapply take_ids_nodup|done]].
    csimpl. f_equal; [|done]. symmetry. by eapply mapM_length. }
  destruct Hsh as [Hsh HN']. split_and!.
  - simpl. eapply gather_nda_wf; [|exact Hb]. by apply larr_nda.
  - simpl. intros ->. assert (length (llabel y) = 0) as E by (rewrite Hlen; rewrite <-(fmap_length length ids), <-Hsh; done).
    apply nil_length_inv in E. destruct Hv as (_ & ? & _). done.
  - unfold lshape. simpl. unfold nd_shape. simpl. apply gather_Some in Hb as (-> & _). done.
  - done.
Qed.
Lemma vacuum_valid y a z : valid y -> vacuum y a = Ok z -> valid z.
Proof. intros Hv. by apply cut_slices_valid. Qed.
Lemma cut_missing_valid y f a z : valid y -> cut_missing y f a = Ok z -> valid z.
Proof.
  intros Hv H. unfold cut_missing in H. apply bind_ok in H as (k & _ & H). apply bind_ok in H as (w & Hw & H).
  case_decide; injection H as <-; [apply empty_larry_valid|by eapply cut_slices_valid].
Qed.

(** ** Functions of lanes *)
Lemma lanewise_some_valid f y ax x : valid y -> lanewise f (lx y) (Some ax) = Ok x -> valid (Larry x (llabel y)).
Proof.
  intros Hv H. unfold lanewise in H. apply bind_ok in H as (_ & _ & H). apply bind_ok in H as (b & Hb & [= <-]). apply of_opt_ok in Hb.
  eapply (along_nda (ldtype y) DFloat) in Hb as [Hb Hs]; [|by apply larr_nda|].
  - by apply data_valid.
  - intros l _. unfold on_nums. apply Forall_fmap, Forall_forall. done.
Qed.
Lemma lanewise_valid f y axis x :
  (forall ns, length (f ns) = length ns) -> valid y -> lanewise f (lx y) axis = Ok x -> valid (Larry x (llabel y)).
Proof.
  intros Hf Hv H. destruct axis as [ax|]; [by eapply lanewise_some_valid|].
  unfold lanewise in H. apply bind_ok in H as (u & Hc & [= <-]). apply check_numeric_inv in Hc.
  destruct (lanewise_spec (fun _ _ => True) f y None None) as (x & Hx & Hz & _); [done..|].
  unfold lanewise in Hx. rewrite check_numeric_ok in Hx by done. by injection Hx as <-.
Qed.
Lemma ranking_valid ndtri y axis norm z : valid y -> larry_ranking ndtri y axis norm = Ok z -> valid z.
Proof. intros Hv H. by apply (larry_ranking_rel (fun _ _ => True)) in H as [? _]. Qed.
Lemma quantile_raw_length argsort q ns : length (quantile_raw argsort q ns) = length ns.
Proof.
  unfold quantile_raw. case_match; [by rewrite replicate_length|].
  set (ps := zip _ _). clearbody ps. set (r := replicate (length ns) NaN). assert (length r = length ns) as <- by (unfold r; by rewrite replicate_length).
  clearbody r. revert r. induction ps as [|q0 ps IH]; intros r; [done|]. cbn [fold_left]. rewrite IH. apply insert_length.
Qed.
Lemma quantile_valid argsort y q axis z : valid y -> larry_quantile argsort y q axis = Ok z -> valid z.
Proof.
  intros Hv H. unfold larry_quantile, np_quantile in H. apply bind_ok in H as (x & Hx & [= <-]).
  assert (Hl : forall ns, length (quantile_lane argsort (Z.to_nat q) ns) = length ns).
  { intros ns. unfold quantile_lane. by rewrite fmap_length, quantile_raw_length. }
  case_decide; [done|]. case_decide; [eapply lanewise_valid; [|exact Hv|exact Hx]; intros ns; apply fmap_length|].
  destruct axis as [a|].
  - apply bind_ok in Hx as (ax & _ & Hx). apply bind_ok in Hx as (n & _ & Hx). do 2 (case_decide; [done|]).
    by eapply lanewise_valid.
  - case_decide; [done|]. by eapply lanewise_valid.
Qed.
Lemma on_axis_valid f y axis x :
  (forall ns, length (f ns) = length ns) -> valid y -> on_axis f (lx y) axis = Ok x -> valid (Larry x (llabel y)).
Proof.
  intros Hf Hv H. destruct axis as [a|]; [|by eapply lanewise_valid]. apply bind_ok in H as (ax & _ & H). by eapply lanewise_valid.
Qed.
Lemma demean_valid y axis z : valid y -> larry_demean y axis = Ok z -> valid z.
Proof. intros Hv H. apply bind_ok in H as (x & Hx & [= <-]). eapply on_axis_valid; [|done..]. intros; apply centre_length. Qed.
Lemma demedian_valid y axis z : valid y -> larry_demedian y axis = Ok z -> valid z.
Proof. intros Hv H. apply bind_ok in H as (x & Hx & [= <-]). eapply on_axis_valid; [|done..]. intros; apply centre_length. Qed.
Lemma zscore_valid sqrt y axis z : valid y -> larry_zscore sqrt y axis = Ok z -> valid z.
Proof. intros Hv H. apply bind_ok in H as (x & Hx & [= <-]). eapply on_axis_valid; [|done..]. intros; apply zscore_length. Qed.
Lemma flip_nda dt (a b : arr val) ax :
  nda_wf (Nda dt a) -> slice_axis a flip_slice ax = Ok b -> nda_wf (Nda dt b) /\ shape b = shape a.
Proof.
  intros Ha H. unfold slice_axis in H. apply bind_ok in H as (n & Hn & H). apply of_opt_ok in Hn. rewrite slice_positions_flip in H.
  cbn [mbind res_bind] in H. apply of_opt_ok in H. unfold take_pos in H. rewrite Hn in H. cbn [mbind option_bind] in H. case_decide; [|done]. split; [by eapply gather_nda_wf|].
  apply gather_Some in H as (-> & _). rewrite reverse_length, seq_length. by apply list_insert_id.
Qed.
Lemma movingsum_forward_valid y w s a norm z : valid y -> larry_movingsum_forward y w s a norm = Ok z -> valid z.
Proof.
  intros Hv H. apply bind_ok in H as (x & Hx & [= <-]). unfold np_movingsum_forward in Hx.
  apply bind_ok in Hx as (ax & _ & Hx). apply bind_ok in Hx as (b & Hb & Hx). apply bind_ok in Hx as (m & Hm & Hx). apply bind_ok in Hx as (c & Hc & [= <-]).
  destruct (flip_nda (ldtype y) _ _ _ (larr_nda y Hv) Hb) as [Hwb Hsb].
  assert (Hv' : valid (Larry (Nda (ldtype y) b) (llabel y))) by (by apply data_valid).
  unfold np_movingsum in Hm. case_decide; [done|]. apply bind_ok in Hm as (ax' & _ & Hm). apply bind_ok in Hm as (n & _ & Hm).
  do 2 (case_decide; [done|]). apply (lanewise_some_valid _ (Larry (Nda (ldtype y) b) (llabel y))) in Hm; [|done].
  destruct (flip_nda (nd_dtype m) _ _ _ (larr_nda _ Hm) Hc) as [Hwc Hsc].
  apply data_valid; [done..|]. unfold nd_shape. simpl in *. rewrite Hsc.
  rewrite <-(valid_shape y Hv). symmetry. exact (valid_shape _ Hm).
Qed.
Lemma move_func_valid layout func y w axis method kw x :
  good_layout layout -> valid y -> np_move_func layout func (larr y) w axis method kw = Ok x -> valid (Larry x (llabel y)).
Proof.
  intros Hg Hv H. pose proof H as H'. unfold np_move_func in H. destruct axis as [a|]; [|by destruct method].
  assert (exists ax l, axis_is y a ax /\ llabel y !! ax = Some l /\ (1 <= w <= Z.of_nat (length l))%Z /\ (method = MLoop \/ method = MStrides /\ length (llabel y) <= 3))
    as (ax & l & Ha & Hl & Hw & Hm).
  { assert (H0 : method <> MBad /\ (if decide (w < 1)%Z then Err ValueError else
          ax ← of_opt IndexError (py_index (ndim (larr y)) a);
          n ← of_opt IndexError (axlen (larr y) ax);
          if decide (Z.of_nat n < w)%Z then Err ValueError else
          y0 ← (match method with
               | MLoop => move_func_loop (func kw) (larr y) (Z.to_nat w) ax n
               | _ => move_func_strides (func kw) (layout (larr y)) (Z.to_nat w) ax n
               end);
          Ok (Nda DFloat (amap VFloat y0))) = Ok x) by (by destruct method).
    clear H. destruct H0 as [Hb H]. case_decide; [done|]. apply bind_ok in H as (ax & Ha & H). apply of_opt_ok in Ha.
    apply bind_ok in H as (n & Hn & H). apply of_opt_ok in Hn. case_decide; [done|]. apply bind_ok in H as (b & Hbk & _).
    exists ax. assert (Ha' : axis_is y a ax) by (by apply axis_is_py).
    assert (exists l, llabel y !! ax = Some l) as [l Hl] by (apply lookup_lt_is_Some; apply Ha').
    exists l. pose proof (valid_axis_len y ax l Hv Hl) as Hn'. assert (n = length l) as -> by congruence.
    split_and!; [done..|lia|lia|]. destruct method; [by left| |done]. right. split; [done|].
    rewrite (valid_ndim y Hv). destruct (decide (lndim y <= 3)) as [|Hgt]; [done|exfalso].
    unfold move_func_strides in Hbk. apply bind_ok in Hbk as (c & Hc & _). unfold strides_windows in Hc.
    rewrite (proj1 (Hg (larr y))) in Hc. assert (Hgt' : ~ length (shape (larr y)) <= 3) by exact Hgt.
    destruct (shape (larr y)) as [|? [|? [|? [|? ?]]]]; try done; simpl in Hgt'; lia. }
  destruct (np_move_func_spec layout func kw y w a ax l method Hg Hv Ha Hl Hw Hm) as (x' & Hx' & Hz). assert (x' = x) as -> by congruence.
  apply Hz.
Qed.
Lemma group_valid f y g a z : valid y -> larry_group f y g a = Ok z -> valid z.
Proof.
  intros Hv H. apply bind_ok in H as (gs & _ & H). apply bind_ok in H as (x & Hx & [= <-]). unfold np_group in Hx.
  apply bind_ok in Hx as (u & _ & Hx). destruct u as [|v u].
  - injection Hx as <-. destruct (full_nda DFloat (lshape y) (VFloat NaN)) as [? ?]; [done|]. by apply data_valid.
  - apply bind_ok in Hx as (ax & _ & Hx). by eapply lanewise_some_valid.
Qed.

(** ** Indexing *)
Lemma arr_set_nda dt (a : arr val) idx v :
  nda_wf (Nda dt a) -> has_dtype dt v = true -> nda_wf (Nda dt (arr_set a idx v)) /\ shape (arr_set a idx v) = shape a.
Proof.
  intros [Hw Ht] Hv. split; [|done]. split; [by apply arr_set_wf|]. by apply Forall_insert.
Qed.
Lemma foldM_sets_nda {B} (f : arr val -> B -> res (arr val)) dt (l : list B) :
  forall a b, (forall a x b, f a x = Ok b -> exists idx v, b = arr_set a idx v /\ has_dtype dt v = true) ->
  nda_wf (Nda dt a) -> foldM f a l = Ok b -> nda_wf (Nda dt b) /\ shape b = shape a.
Proof.
  induction l as [|x l IH]; intros a b Hf Ha H; [by injection H as <-|].
  apply bind_ok in H as (c & Hc & H). apply Hf in Hc as (idx & v & -> & Hv). destruct (arr_set_nda dt a idx v Ha Hv) as [Hw Hs].
  apply IH in H as [? ?]; [|done..]. split; [done|congruence].
Qed.
Lemma getitem_list_valid dt (a : arr val) items b label b0 z :
  nda_wf (Nda dt a) -> np_getitem a items = Ok b -> b0 = true -> new_larry (Nda dt b) label b0 = Ok z -> valid z.
Proof.
  intros Ha Hb -> Hz. unfold np_getitem in Hb. apply bind_ok in Hb as (s & _ & Hb). apply of_opt_ok in Hb.
  apply make_some_valid in Hz as [-> ?]; [done|]. by eapply gather_nda_wf.
Qed.
Lemma getitem_valid y ix z : valid y -> larry_getitem y ix = Ok (GLar z) -> valid z.
Proof.
  intros Hv H. destruct ix as [i|s|l|l|m|items].
  1-4: apply getitem_sound in H as (ss & _ & [? _]); [done|done|by repeat constructor| |done];
    right; intros a b x y0 Hab Ha Hb; destruct a, b; simpl in *; try lia; done.
  - cbn [larry_getitem] in H. do 3 (case_decide; [done|]). apply bind_ok in H as (l & _ & H). apply bind_ok in H as (lab & _ & H).
    apply bind_ok in H as (b & Hb & H). apply bind_ok in H as (w & Hw & [= <-]).
    eapply getitem_list_valid; [|exact Hb| |exact Hw]; [by apply larr_nda|done].
  - destruct (existsb b_list items) eqn:E.
    + cbn [larry_getitem] in H. apply bind_ok in H as (label & _ & H). apply bind_ok in H as (b & Hb & H).
      destruct (forallb b_int items); [case_match; [by apply bind_ok in H as (? & _ & ?)|done]|].
      apply bind_ok in H as (w & Hw & [= <-]). rewrite E in Hw. eapply getitem_list_valid; [|exact Hb| |exact Hw]; [by apply larr_nda|done].
    + assert (Hnl : forall it, it ∈ items -> b_list it = false).
      { intros it Hit. destruct (b_list it) eqn:Eb; [|done]. rewrite <-E. symmetry. apply existsb_exists. exists it. split; [by apply elem_of_list_In|done]. }
      apply getitem_tuple_sound in H as (ss & _ & [? _]); [done|done| | |].
      * apply Forall_forall. intros it Hit. specialize (Hnl it Hit). by destruct it.
      * right. intros i j a b _ _ Hb Hl. apply elem_of_list_lookup_2 in Hb. apply Hnl in Hb. by destruct b.
      * intros Hall. exfalso. cbn [larry_getitem] in H. apply bind_ok in H as (label & _ & H). apply bind_ok in H as (b & Hb & H).
        assert (forallb b_int items = true) as Hi.
        { apply forallb_forall. intros it Hit. apply elem_of_list_In in Hit. eapply Forall_forall in Hall; [|exact Hit]. by destruct it. }
        rewrite Hi in H. case_match; [by apply bind_ok in H as (? & _ & ?)|done].
Qed.
Lemma data_set_valid y b : valid y -> nda_wf (Nda (ldtype y) b) /\ shape b = shape (larr y) -> valid (Larry (Nda (ldtype y) b) (llabel y)).
Proof. intros Hv [Hb Hs]. by apply data_valid. Qed.
Lemma setitem_valid y ix v z : valid y -> larry_setitem y ix v = Ok z -> valid z.
Proof.
  intros Hv H. destruct v as [v|w]; simpl in H.
  - apply bind_ok in H as (u & Hu & H). apply store_typed in Hu. apply bind_ok in H as (b & Hb & [= <-]).
    apply data_set_valid; [done|]. unfold np_setitem in Hb. apply bind_ok in Hb as (s & _ & Hb). eapply foldM_sets_nda; [|by apply larr_nda|exact Hb].
    intros a x c Hc. simpl in Hc. apply bind_ok in Hc as (p & _ & [= <-]). eauto.
  - apply bind_ok in H as (g & _ & H). destruct g as [z0| |]; [|done..]. case_decide; [|done]. apply bind_ok in H as (b & Hb & [= <-]).
    apply data_set_valid; [done|]. unfold np_setitem in Hb. apply bind_ok in Hb as (s & _ & Hb). eapply foldM_sets_nda; [|by apply larr_nda|exact Hb].
    intros a x c Hc. simpl in Hc. apply bind_ok in Hc as (p & _ & Hc). apply bind_ok in Hc as (u & Hu & [= <-]).
    apply bind_ok in Hu as (v & _ & Hu). apply store_typed in Hu. eauto.
Qed.
Lemma setmask_valid y m v z : valid y -> valid m -> larry_setmask y m v = Ok z -> valid z.
Proof.
  intros Hv Hm H. assert (ldtype m = DBool) as Hd.
  { unfold larry_setmask in H. case_decide; [|done]. apply bind_ok in H as (k & Hk & _). by destruct (ldtype m). }
  by apply setmask_spec in H as (_ & u & _ & ? & _).
Qed.
Lemma np_squeeze_nda dt (a : arr val) : nda_wf (Nda dt a) -> nda_wf (Nda dt (np_squeeze a)).
Proof.
  intros [Hw Ht]. split; [|done]. unfold arr_wf, asize, np_squeeze in *. simpl in *. rewrite Hw. generalize (shape a). intros sh. clear.
  induction sh as [|n sh IH]; [done|]. rewrite filter_cons. unfold size_of in *. case_decide as Hn; cbn [foldr]; [by rewrite IH|].
  assert (n = 1) as -> by lia. rewrite IH. lia.
Qed.
Lemma lix_get_valid y ix z : valid y -> lix_get y ix = Ok (GLar z) -> valid z.
Proof.
  intros Hv H. unfold lix_get in H. case_decide; [by injection H as <-|]. case_decide; [done|]. destruct ix as [i|ls|s|items].
  - by eapply getitem_valid.
  - apply bind_ok in H as (l & _ & H). apply bind_ok in H as (ps & _ & H). destruct ps as [|p [|]]; by eapply getitem_valid.
  - apply bind_ok in H as (s' & _ & H). by eapply getitem_valid.
  - apply bind_ok in H as (q & _ & H). apply bind_ok in H as (b & Hb & H). case_match; [by apply bind_ok in H as (? & _ & ?)|].
    apply bind_ok in H as (w & Hw & [= <-]). unfold np_ix in Hb. apply bind_ok in Hb as (ps & _ & Hb). apply of_opt_ok in Hb.
    assert (Hwb : nda_wf (Nda (ldtype y) b)) by (eapply gather_nda_wf; [by apply larr_nda|exact Hb]).
    apply make_some_valid in Hw as [-> ?]; [done|].
    by apply np_squeeze_nda.
Qed.
Lemma lix_set_valid y ix v z : valid y -> lix_set y ix v = Ok z -> valid z.
Proof.
  intros Hv H. unfold lix_set in H. do 2 (case_decide; [done|]). destruct ix as [i|ls|s|items].
  - by eapply setitem_valid.
  - apply bind_ok in H as (l & _ & H). apply bind_ok in H as (ps & _ & H). destruct ps as [|p [|]]; by eapply setitem_valid.
  - apply bind_ok in H as (s' & _ & H). by eapply setitem_valid.
  - apply bind_ok in H as (q & _ & H). apply bind_ok in H as (f & Hf & H). apply bind_ok in H as (b & Hb & [= <-]).
    assert (Hft : forall idx u, f idx = Ok u -> has_dtype (ldtype y) u = true).
    { destruct v as [v|w].
      - apply bind_ok in Hf as (u & Hu & [= <-]). apply store_typed in Hu. by intros idx u' [= <-].
      - case_decide; [done|]. apply bind_ok in Hf as (label & _ & Hf). case_decide; [|done]. injection Hf as <-.
        intros idx u Hu. apply bind_ok in Hu as (v & _ & Hu). by apply store_typed in Hu. }
    apply data_set_valid; [done|]. unfold np_ix_set in Hb. apply bind_ok in Hb as (ps & _ & Hb).
    eapply foldM_sets_nda; [|by apply larr_nda|exact Hb].
    intros a x c Hc. simpl in Hc. apply bind_ok in Hc as (p & _ & Hc). apply bind_ok in Hc as (u & Hu & [= <-]). eauto.
Qed.

(** ** Resampling and conversions *)
Lemma shuffle_valid d y axis z : valid y -> larry_shuffle d y axis = Ok z -> valid z.
Proof. intros Hv H. by apply shuffle_spec in H as (? & [? _] & _). Qed.
Lemma shufflelabel_valid d y axis z : valid y -> larry_shufflelabel d y axis = Ok z -> valid z.
Proof. intros Hv H. by apply shufflelabel_spec in H as (_ & ? & _). Qed.
Lemma flatten_valid y order z : valid y -> larry_flatten y order = Ok z -> valid z.
Proof.
  intros Hv H. assert (order = "C" \/ order = "F") as Ho.
  { unfold larry_flatten in H. apply bind_ok in H as (l & _ & H). apply bind_ok in H as (x & Hx & _). unfold np_flatten in Hx.
    do 2 (case_decide; [by auto|]). done. }
  destruct (flatten_spec y order Hv Ho) as (z' & Hz & Hf). assert (z' = z) as -> by congruence. apply Hf.
Qed.
Lemma fromlists_nda xs labels p : fromlists xs labels = Ok p -> nda_wf p.1.
Proof.
  intros H. unfold fromlists in H. case_decide; [injection H as <-; split; [done|constructor]|]. apply bind_ok in H as (r & _ & H).
  case_decide; [done|]. apply bind_ok in H as (vs & Hvs & H). apply bind_ok in H as (ws & Hws & H). apply bind_ok in H as (x & Hx & [= <-]).
  assert (Hft : Forall (fun v => has_dtype DFloat v = true) ws).
  { assert (Forall (fun v => has_dtype DFloat v = true) vs) as Hv.
    { apply mapR_ok in Hvs. eapply Forall2_Forall_r; [exact Hvs|]. apply Forall_forall. intros v _ w Hw. by apply store_typed in Hw. }
    case_decide; [by injection Hws as <-|]. destruct vs as [|v [|]]; try done. injection Hws as <-. apply Forall_replicate. by inversion Hv. }
  set (step := fun (a : arr val) (p : list nat * val) => _) in Hx.
  assert (Hstep : forall l a b, Forall (fun v => has_dtype DFloat v = true) l.*2 -> nda_wf (Nda DFloat a) -> foldM step a l = Ok b -> nda_wf (Nda DFloat b)).
  { induction l as [|q l IH]; intros a b Hl Ha Hb; [by injection Hb as <-|]. csimpl in Hl. apply Forall_cons in Hl as [Hq Hl].
    apply bind_ok in Hb as (c & Hc & Hb). unfold step in Hc. case_decide; [|done]. injection Hc as <-.
    eapply IH; [done| |exact Hb]. by apply arr_set_nda. }
  simpl. eapply Hstep; [|exact (proj1 (full_nda DFloat (length <$> r.*2) (VFloat NaN) eq_refl))|exact Hx].
  clear -Hft. set (is := py_zip _). clearbody is. revert is. induction Hft as [|w ws Hw Hft IH]; intros [|i is]; [constructor..|].
  cbn [zip zip_with]. csimpl. constructor; [done|apply IH].
Qed.
Lemma larry_of_valid p z : nda_wf p.1 -> larry_of p = Ok z -> valid z.
Proof.
  intros Hp H. destruct p as [x [l|]]; unfold larry_of in H; simpl in *; [|by eapply make_none_valid]. by apply make_some_valid in H as [-> ?].
Qed.
Lemma fromlist_valid d z : larry_fromlist d = Ok z -> valid z.
Proof.
  destruct d as [[xs labels]|]; simpl; intros H; [|injection H as <-; apply empty_larry_valid].
  apply bind_ok in H as (p & Hp & H). apply fromlists_nda in Hp. by eapply larry_of_valid.
Qed.
Lemma fromtuples_valid d z : larry_fromtuples d = Ok z -> valid z.
Proof.
  unfold larry_fromtuples. intros H. case_decide; [injection H as <-; apply empty_larry_valid|]. case_match; [|done].
  apply bind_ok in H as (p & Hp & H). apply fromlists_nda in Hp. by eapply larry_of_valid.
Qed.
Lemma unflatten_valid y z : valid y -> larry_unflatten y = Ok z -> valid z.
Proof.
  intros Hv H. unfold larry_unflatten in H. case_decide; [done|]. case_decide; [injection H as <-; apply empty_larry_valid|].
  apply bind_ok in H as (v & _ & H). case_match; [|done]. apply bind_ok in H as (l & _ & H). apply bind_ok in H as (r & _ & H).
  apply bind_ok in H as (p & Hp & H). apply fromlists_nda in Hp. by eapply larry_of_valid.
Qed.

(** ** Functions of several larrys *)
Lemma valid1 y : valid y -> Forall valid [y].
Proof. intros H. constructor; [done|constructor]. Qed.
Lemma valid2 y z : valid y -> valid z -> Forall valid [y; z].
Proof. intros H1 H2. constructor; [done|by apply valid1]. Qed.
Lemma align_valid y1 y2 j cast p : valid y1 -> valid y2 -> align y1 y2 j cast = Ok p -> Forall valid [p.1; p.2].
Proof.
  intros H1 H2 H. destruct p as [z1 z2]. apply align_spec in H as (_ & [Ha _] & [Hb _] & _); [|done..]. by apply valid2.
Qed.
Lemma align_axis_valid ys axis j zs : Forall valid ys -> align_axis ys axis j = Ok zs -> Forall valid zs.
Proof.
  intros Hv H. apply align_axis_spec in H as (u & _ & Hlen & H); [|done]. apply Forall_lookup. intros i z Hz.
  assert (exists y, ys !! i = Some y) as [y Hy]. { apply lookup_lt_is_Some. rewrite <-Hlen. by eapply lookup_lt_Some. }
  destruct (H i y z Hy Hz) as (? & ? & ? & _ & _ & _ & _ & [? _]). done.
Qed.
Lemma stack_valid mode kwargs z : Forall valid kwargs.*2 -> NoDup kwargs.*1 -> stack mode kwargs = Ok z -> valid z.
Proof. intros Hv Hn H. by apply stack_spec in H as [? _]. Qed.
Lemma panel_valid y z : valid y -> panel y = Ok z -> valid z.
Proof.
  intros Hv H. destruct (panel_spec y Hv) as (z' & ? & ? & ? & ? & Hz' & ? & _); [| |congruence].
  - unfold panel in H. unfold lndim, nd_ndim. change (nd_shape (lx y)) with (lshape y). destruct (llabel y) as [|? [|? [|? [|]]]], (lshape y) as [|? [|? [|? [|]]]]; done.
  - unfold panel in H. destruct (llabel y) as [|? [|? [|? [|]]]], (lshape y) as [|n [|m [|k [|]]]]; try done.
    apply bind_ok in H as (? & _ & H). apply bind_ok in H as (? & _ & H). case_decide; [done|]. simpl. congruence.
Qed.
Lemma cov_valid y z : valid y -> larry_cov y = Ok z -> valid z.
Proof. intros Hv H. by apply cov_spec in H as (? & ? & _ & ? & _). Qed.
Lemma sortby_valid argsort y e a r z : valid y -> sortby argsort y e a r = Ok z -> valid z.
Proof.
  intros Hv H. unfold sortby in H. case_decide; [done|]. apply bind_ok in H as (early & _ & H). destruct early; [injection H as <-; by apply copy_valid|].
  case_decide; [done|]. apply bind_ok in H as (idx & _ & H). apply bind_ok in H as (vs & _ & H). case_decide; [done|].
  apply bind_ok in H as (g & Hg & H). destruct g; [|done..]. injection H as <-. by eapply getitem_valid.
Qed.
Lemma lrange_valid shape label a b dt z : lrange shape label a b dt = Ok z -> valid z.
Proof. intros H. by apply lrange_cells in H as (? & ? & ? & _ & _ & _ & _ & ? & _). Qed.
Lemma split_valid y tr te axis p : valid y -> split_data y tr te axis = Ok p -> Forall valid [p.1; p.2].
Proof. intros Hv H. destruct p as [a b]. apply split_spec in H as (? & ? & ? & ? & _ & _ & _ & _ & ? & ? & _); [|done]. by apply valid2. Qed.

(** ** Elementwise functions, lane functions and conversions *)
Lemma ufunc_valid f y z : valid y -> larry_ufunc f y = Ok z -> valid z.
Proof.
  intros Hv H. unfold larry_ufunc in H. destruct (ldtype y) eqn:E; try done; injection H as <-;
    (apply data_valid; [done| |done]); (eapply amap_nda; [by apply larr_nda|]); intros v; rewrite E; by destruct v.
Qed.
Lemma power_valid pow y q z : valid y -> larry_power pow y q = Ok z -> valid z.
Proof.
  intros Hv H. unfold larry_power in H. destruct (ldtype y) eqn:E, q; try done; try (by eapply ufunc_valid).
  case_decide; [done|]. injection H as <-. apply data_valid; [done| |done].
  eapply amap_nda; [by apply larr_nda|]. intros v. rewrite E. by destruct v.
Qed.
Lemma reduce_nums_valid f e y axis z : valid y -> reduce_nums f e y axis = Ok (OLar z) -> valid z.
Proof.
  intros Hv H. unfold reduce_nums in H. case_decide as Hz.
  - destruct axis as [a|]; [|done]. apply bind_ok in H as (ax & Ha & H). destruct (remove_at ax (lshape y)) as [|n sh] eqn:E; [done|].
    apply bind_ok in H as (v & Hst & [= <-]). apply store_typed in Hst.
    destruct (full_nda _ (n :: sh) _ Hst). apply axis_dropped_valid; done.
  - apply bind_ok in H as (_ & _ & H). destruct axis as [a|]; [|done]. apply bind_ok in H as (ax & Ha & H).
    apply bind_ok in H as (b & Hb & H). apply of_opt_ok in Hb.
    eapply (reduce_nda (ldtype y) DFloat) in Hb as (Hw & Hs & _); [|by apply larr_nda|done].
    by eapply as_out_valid.
Qed.
Lemma geometric_mean_valid log exp y axis check z : valid y -> larry_geometric_mean log exp y axis check = Ok (OLar z) -> valid z.
Proof.
  intros Hv H. unfold larry_geometric_mean in H. case_decide; [by eapply reduce_nums_valid|].
  apply bind_ok in H as (_ & _ & H). destruct (_ && _); [done|]. by eapply reduce_nums_valid.
Qed.
Lemma lastrank_decay_valid exp y axis decay z : valid y -> larry_lastrank_decay exp y axis decay = Ok (OLar z) -> valid z.
Proof.
  intros Hv H. unfold larry_lastrank_decay in H. apply bind_ok in H as (_ & _ & H). case_decide; [by eapply reduce_nums_valid|].
  destruct (num_ltb (num_of_Z 0) decay); [by eapply reduce_nums_valid|]. destruct (num_ltb decay (num_of_Z 0)); [done|]. by eapply lastrank_valid.
Qed.
Lemma keep_x_plain_valid y op v z : valid y -> keep_x y op v false = Ok z -> valid z /\ ldtype z = ldtype y /\ llabel z = llabel y.
Proof.
  intros Hv H. unfold keep_x in H. cbn [andb] in H. apply bind_ok in H as (o & _ & H). apply bind_ok in H as (a & Ha & H).
  apply scalar_nda_spec in Ha as (Ha & Hs & _). apply bind_ok in H as (r & Hr & H). destruct r as [idx|b]; [|by destruct (ldtype y)].
  apply np_compare_valid in Hr as ([Hw _] & _ & Hsh & _); [|done..|rewrite Hs; apply fits_nil].
  assert (nd_shape idx = lshape y) as Hsx by (simpl in Hsh; unfold lshape in Hsh; simpl in Hsh; rewrite <-Hsh; apply (valid_shape y Hv)).
  assert (exists x, blank (lx y) idx = Ok x /\ z = Larry x (llabel y)) as (x & Hx & ->).
  { destruct (ldtype y); try done; apply bind_ok in H as (x & Hx & [= <-]); by exists x. }
  unfold blank in Hx. apply putmask_scalar_nda in Hx as (Hwx & Hsh' & Hd); [|apply Hv|by apply amap_wf|exact Hsx].
  split; [by apply data_valid|done].
Qed.
Lemma keep_x_steps y op v vac : keep_x y op v vac =
  if vac && negb (bool_decide (lndim y = 2)) then Err ValueError
  else z ← keep_x y op v false; if vac then vacuum z AxNone else Ok z.
Proof.
  unfold keep_x. destruct (vac && negb _); [done|]. cbn [andb]. destruct op as [op|]; [|done]. cbn [of_opt mbind res_bind].
  destruct (scalar_nda v) as [a|]; [|done]. cbn [mbind res_bind]. destruct (np_compare op (lx y) a) as [r|]; [|done]. cbn [mbind res_bind].
  destruct (ldtype y), r as [idx|b]; try done; destruct (blank (lx y) idx); done.
Qed.
Lemma keep_x_valid y op v vac z : valid y -> keep_x y op v vac = Ok z -> valid z.
Proof.
  intros Hv. rewrite keep_x_steps. destruct (vac && negb _); [done|]. intros H. apply bind_ok in H as (w & Hw & H).
  apply keep_x_plain_valid in Hw as [Hw _]; [|done]. destruct vac; [by eapply vacuum_valid|by injection H as <-].
Qed.
Lemma move_valid op y window axis z : valid y -> larry_move op y window axis = Ok z -> valid z.
Proof.
  intros Hv H. apply bind_ok in H as (x & Hx & [= <-]). unfold bn_move in Hx. destruct axis as [a|]; [|done].
  apply bind_ok in Hx as (ax & _ & Hx). apply bind_ok in Hx as (n & _ & Hx). apply bind_ok in Hx as (_ & _ & Hx). case_decide; [done|].
  by eapply lanewise_some_valid.
Qed.
Lemma astype_nda x dt x' : nda_wf x -> np_astype x dt = Ok x' -> nda_wf x' /\ nd_shape x' = nd_shape x.
Proof.
  intros [Hw Ht] H. apply bind_ok in H as (vs & H & [= <-]). apply mapR_ok in H. split; [|done]. split.
  - unfold arr_wf in *. cbn. rewrite <-(Forall2_length _ _ _ H). apply Hw.
  - cbn. clear -H Ht. revert Ht. induction H as [|v u ? ? Hc]; [constructor|]. intros [? ?]%Forall_cons. constructor; [by eapply cast_typed|auto].
Qed.
Lemma astype_valid y dt z : valid y -> larry_astype y dt = Ok z -> valid z.
Proof. intros Hv H. apply bind_ok in H as (x & Hx & [= <-]). apply astype_nda in Hx as [? ?]; [|apply Hv]. by apply data_valid. Qed.
Lemma make_dtype_valid x label dt z : nda_wf x -> make_dtype x label dt = Ok z -> valid z.
Proof.
  intros Hx H. apply bind_ok in H as (x' & Hx' & Hz). assert (nda_wf x') as Hw.
  { destruct dt; [by apply astype_nda in Hx' as [? _]|by injection Hx' as <-]. }
  destruct label as [l|]; [by apply make_some_valid in Hz as [-> ?]|by eapply make_none_valid].
Qed.
Lemma fromcsv_valid py3 float t d skiprows z : larry_fromcsv py3 float t d skiprows = Ok z -> valid z.
Proof.
  intros H. unfold larry_fromcsv in H. apply bind_ok in H as (c & _ & H). destruct (py3 && _); [done|]. apply bind_ok in H as (rows & _ & H).
  case_decide; [done|]. unfold fromtuples_text in H. case_decide; [injection H as <-; apply empty_larry_valid|].
  apply bind_ok in H as (xs & _ & H). case_decide; [done|]. apply bind_ok in H as (vs & _ & H). apply bind_ok in H as (p & Hp & H).
  apply fromlists_nda in Hp. by eapply larry_of_valid.
Qed.

(** ** Calls and programs *)
Lemma new_valid r env p : new r = Ok p -> (forall z, r = Ok z -> valid z) -> Forall valid env -> Forall valid (changed env (fst p) ++ snd p).
Proof. intros H Hz Hv. apply bind_ok in H as (z & Hr & [= <-]). simpl. apply Forall_app. split; [done|]. by apply valid1, Hz. Qed.
Lemma news_valid r env p : news r = Ok p -> (forall zs, r = Ok zs -> Forall valid zs) -> Forall valid env -> Forall valid (changed env (fst p) ++ snd p).
Proof. intros H Hz Hv. apply bind_ok in H as (zs & Hr & [= <-]). simpl. apply Forall_app. split; [done|]. by apply Hz. Qed.
Lemma inplace_valid i r env p : inplace i r = Ok p -> (forall z, r = Ok z -> valid z) -> Forall valid env -> Forall valid (changed env (fst p) ++ snd p).
Proof.
  intros H Hz Hv. apply bind_ok in H as (z & Hr & [= <-]). simpl. rewrite app_nil_r. apply Forall_insert; [done|by apply Hz].
Qed.
Lemma with1_ok {A} env i (f : larry -> res A) a :
  Forall valid env -> with1 env i f = Ok a -> exists y, env !! i = Some y /\ valid y /\ f y = Ok a.
Proof.
  intros Hv H. apply bind_ok in H as (y & Hy & H). apply of_opt_ok in Hy. exists y. split_and!; [done| |done]. by eapply Forall_lookup_1 in Hv.
Qed.
Lemma with2_ok {A} env i j (f : larry -> larry -> res A) a :
  Forall valid env -> with2 env i j f = Ok a ->
  exists y z, env !! i = Some y /\ env !! j = Some z /\ valid y /\ valid z /\ f y z = Ok a.
Proof.
  intros Hv H. apply bind_ok in H as (y & Hy & H). apply of_opt_ok in Hy. apply bind_ok in H as (z & Hz & H). apply of_opt_ok in Hz. exists y, z.
  split_and!; try done; by eapply Forall_lookup_1 in Hv.
Qed.
Lemma all_ok env is ys : Forall valid env -> mapR (nth_larry env) is = Ok ys -> Forall valid ys.
Proof.
  intros Hv H. apply mapR_ok in H. eapply Forall2_Forall_r; [exact H|]. apply Forall_forall. intros i _ y Hy. apply of_opt_ok in Hy.
  by eapply Forall_lookup_1 in Hv.
Qed.
Lemma out_larrys_valid (r : res out) zs :
  (forall z, r = Ok (OLar z) -> valid z) -> (o ← r; Ok (out_larrys o)) = Ok zs -> Forall valid zs.
Proof. intros Hz H. apply bind_ok in H as (o & Ho & [= <-]). destruct o; simpl; [|constructor]. by apply valid1, Hz. Qed.
Lemma gres_larrys_valid (r : res gres) zs :
  (forall z, r = Ok (GLar z) -> valid z) -> (o ← r; Ok (gres_larrys o)) = Ok zs -> Forall valid zs.
Proof. intros Hz H. apply bind_ok in H as (o & Ho & [= <-]). destruct o; simpl; [|constructor..]. by apply valid1, Hz. Qed.

Ltac call1 H :=
  first [eapply new_valid; [exact H| |done]; intros w (y & Hy & Vy & Hr)%with1_ok; [|done]
        |eapply inplace_valid; [exact H| |done]; intros w (y & Hy & Vy & Hr)%with1_ok; [|done]].
Ltac call2 H :=
  first [eapply new_valid; [exact H| |done]; intros w (y & z & Hy & Hz & Vy & Vz & Hr)%with2_ok; [|done]
        |eapply inplace_valid; [exact H| |done]; intros w (y & z & Hy & Hz & Vy & Vz & Hr)%with2_ok; [|done]].
Ltac callo H :=
  eapply news_valid; [exact H| |done];
  first [intros ws (y & z & Hy & Hz & Vy & Vz & Hws)%with2_ok; [|done]|intros ws (y & Hy & Vy & Hws)%with1_ok; [|done]];
  first [eapply out_larrys_valid; [|eassumption]|eapply gres_larrys_valid; [|eassumption]]; intros w Hr.

Theorem exec_valid env c env' : Forall valid env -> fine env c -> exec env c = Ok env' -> Forall valid env'.
Proof.
  intros Hv Hf H. apply bind_ok in H as (p & H & [= <-]). destruct c; cbn [results] in H; cbn [fine] in Hf.
  - eapply new_valid; [exact H| |done]. intros z Hz. destruct label as [l|]; [by apply make_some_valid in Hz as [-> ?]|by eapply make_none_valid].
  - call1 H. injection Hr as <-. by apply copy_valid.
  - call1 H. by eapply set_valid.
  - call1 H. by eapply fill_valid.
  - call1 H. eapply maplabel_valid; [exact Vy|exact Hr|]. eauto.
  - call1 H. by eapply take_valid.
  - call1 H. by eapply keep_label_valid.
  - callo H. by eapply pull_valid.
  - call1 H. by eapply lag_valid.
  - call1 H. by eapply flipaxis_valid.
  - call1 H. by eapply T_valid.
  - call1 H. by eapply swapaxes_valid.
  - call1 H. injection Hr as <-. eapply squeeze_valid; [done|by apply Hf].
  - call1 H. by eapply insertaxis_valid.
  - call1 H. by eapply morph_valid.
  - call2 H. by eapply (morph_like_valid y z).
  - call1 H. by eapply sortaxis_valid.
  - call2 H. by eapply (merge_valid y z).
  - call1 H. by eapply nan_replace_valid.
  - call1 H. injection Hr as <-. by apply ismissing_valid.
  - call2 H. by eapply (arith_valid _ y z).
  - destruct Hf as [Ha Hf]. call1 H. eapply arith_arr_valid; [exact Vy|exact Ha|by apply Hf|exact Hr].
  - call1 H. by eapply arith_scalar_valid.
  - destruct Hf as [Ha Hf]. call1 H. eapply rarith_arr_valid; [exact Vy|exact Ha|by apply Hf|exact Hr].
  - call1 H. by eapply rarith_scalar_valid.
  - call2 H. by eapply (logic_valid _ y z).
  - destruct Hf as [Ha Hf]. call1 H. eapply logic_arr_valid; [exact Vy|exact Ha|by apply Hf|exact Hr].
  - call1 H. by eapply logic_scalar_valid.
  - callo H. eapply compare_valid; [exact Vy|exact Vz|by eapply Hf|exact Hr].
  - destruct Hf as [Ha Hf]. callo H. eapply compare_arr_valid; [exact Vy|exact Ha|by apply Hf|exact Hr].
  - callo H. by eapply compare_scalar_valid.
  - call1 H. by eapply neg_valid.
  - call1 H. by eapply abs_valid.
  - call1 H. by eapply sign_valid.
  - call1 H. by eapply test_valid.
  - call1 H. by eapply test_valid.
  - call1 H. by eapply test_valid.
  - call1 H. by eapply invert_valid.
  - call1 H. by eapply cum_valid.
  - call1 H. by eapply clip_valid.
  - callo H. by eapply reduce_valid.
  - callo H. by eapply std_valid.
  - callo H. by eapply prod_valid.
  - callo H. by eapply lastrank_valid.
  - call1 H. by eapply vacuum_valid.
  - call1 H. by eapply cut_missing_valid.
  - call1 H. by eapply push_valid.
  - call1 H. by eapply ranking_valid.
  - call1 H. by eapply quantile_valid.
  - call1 H. by eapply demean_valid.
  - call1 H. by eapply demedian_valid.
  - call1 H. by eapply zscore_valid.
  - call1 H. by eapply movingsum_forward_valid.
  - call1 H. apply bind_ok in Hr as (x & Hx & [= <-]). by eapply move_func_valid.
  - call1 H. apply bind_ok in Hr as (u & _ & Hr). apply bind_ok in Hr as (x & Hx & [= <-]). by eapply move_func_valid.
  - call1 H. apply bind_ok in Hr as (u & _ & Hr). apply bind_ok in Hr as (x & Hx & [= <-]). by eapply move_func_valid.
  - call2 H. by eapply (group_valid _ y).
  - call2 H. by eapply (group_valid _ y).
  - call2 H. by eapply (group_valid _ y).
  - callo H. by eapply getitem_valid.
  - call1 H. by eapply setitem_valid.
  - call2 H. by eapply (setmask_valid y z).
  - callo H. by eapply lix_get_valid.
  - call1 H. by eapply lix_set_valid.
  - call1 H. by eapply shuffle_valid.
  - call1 H. by eapply shufflelabel_valid.
  - call1 H. by eapply flatten_valid.
  - call1 H. by eapply unflatten_valid.
  - eapply new_valid; [exact H| |done]. intros z Hz. by eapply fromlist_valid.
  - eapply new_valid; [exact H| |done]. intros z Hz. by eapply fromtuples_valid.
  - eapply new_valid; [exact H| |done]. intros z Hz. unfold larry_fromdict in Hz. by eapply fromlist_valid.
  - eapply news_valid; [exact H| |done]. intros ws (y & z & _ & _ & Vy & Vz & Hr)%with2_ok; [|done]. apply bind_ok in Hr as (q & Hq & [= <-]).
    by eapply (align_valid y z).
  - eapply news_valid; [exact H| |done]. intros ws Hws. apply bind_ok in Hws as (ys & Hys & Hr). apply all_ok in Hys; [|done]. by eapply align_axis_valid.
  - call2 H. apply bind_ok in Hr as (q & Hq & Hr). apply bind_ok in Hr as (L & HL & [= <-]). apply of_opt_ok in HL. destruct q as [x labels].
    eapply (binaryop_valid _ y z); [exact Vy|exact Vz| |exact Hq|exact HL]. intros js. by apply Hf.
  - eapply new_valid; [exact H| |done]. intros z Hz. apply bind_ok in Hz as (ys & Hys & Hz). apply all_ok in Hys; [|done].
    eapply stack_valid; [| |exact Hz].
    + clear -Hys. revert ys Hys. induction names as [|n ns IH]; intros [|y ys] Hys; [constructor..|]. csimpl. inversion_clear Hys. constructor; [done|by apply IH].
    + clear -Hf. revert ys. induction Hf as [|n ns Hn Hf IH]; intros [|y ys]; [constructor..|]. csimpl. constructor; [|apply IH].
      intros (q & -> & Hq)%elem_of_list_fmap. destruct q as [a b]. apply elem_of_zip_l in Hq. done.
  - call1 H. by eapply panel_valid.
  - call1 H. by eapply cov_valid.
  - call1 H. by eapply sortby_valid.
  - eapply new_valid; [exact H| |done]. intros z Hz. by eapply lrange_valid.
  - destruct Hf as [dt Hf]. eapply new_valid; [exact H| |done]. intros z Hz. by eapply empty_spec in Hz as (? & _ & ? & _).
  - destruct Hf as [dt Hf]. eapply new_valid; [exact H| |done]. intros z Hz. by eapply filled_spec in Hz as (? & ? & _ & ? & _).
  - destruct Hf as [dt Hf]. eapply news_valid; [exact H| |done]. intros zs. apply out_larrys_valid. intros z Hz. by eapply rand_spec in Hz as (? & _ & _ & ? & _).
  - eapply news_valid; [exact H| |done]. intros ws (y & _ & Vy & Hr)%with1_ok; [|done]. apply bind_ok in Hr as (q & Hq & [= <-]).
    by eapply (split_valid y).
  - call1 H. injection Hr as <-. by apply copy_valid.
  - call1 H. by eapply ufunc_valid.
  - call1 H. by eapply power_valid.
  - callo H. by eapply geometric_mean_valid.
  - callo H. by eapply lastrank_decay_valid.
  - call1 H. by eapply keep_x_valid.
  - call1 H. by eapply move_valid.
  - call1 H. by eapply astype_valid.
  - eapply new_valid; [exact H| |done]. intros z Hz. by eapply make_dtype_valid.
  - eapply new_valid; [exact H| |done]. intros z Hz. by eapply fromcsv_valid.
Qed.
Theorem run_valid p : forall env env', Forall valid env -> fine_run env p -> run env p = Ok env' -> Forall valid env'.
Proof.
  induction p as [|c p IH]; intros env env' Hv Hf H; [by injection H as <-|].
  destruct Hf as [Hc Hf]. apply bind_ok in H as (e & He & H). eapply IH; [|by apply Hf|exact H]. by eapply exec_valid.
Qed.
