(** Methods commute with picking labels of an axis they do not run along. *)
From Verif Require Export PickFacts Methods.

(** Where the first computation succeeds so does the second, with a related
    result. *)
Definition sim {A B} (R : A -> B -> Prop) (r : res A) (r' : res B) : Prop :=
  forall a, r = Ok a -> exists b, r' = Ok b /\ R a b.
Lemma sim_ret {A B} (R : A -> B -> Prop) a b : R a b -> sim R (Ok a) (Ok b).
Proof. intros H x [= <-]. eauto. Qed.
Lemma sim_err {A B} (R : A -> B -> Prop) e r : sim R (Err e) r.
Proof. by intros x. Qed.
Lemma sim_bind {A B C D} (R : A -> B -> Prop) (S : C -> D -> Prop) r r' k k' :
  sim R r r' -> (forall a b, R a b -> sim S (k a) (k' b)) -> sim S (x ← r; k x) (x ← r'; k' x).
Proof.
  intros H Hk c Hc. apply bind_ok in Hc as (a & Ha & Hc). destruct (H a Ha) as (b & -> & HR). simpl. by eapply Hk.
Qed.
Lemma sim_same {A} (r : res A) : sim eq r r.
Proof. intros a ->. eauto. Qed.
Lemma sim_bind_same {A C D} (S : C -> D -> Prop) (r : res A) k k' :
  (forall a, r = Ok a -> sim S (k a) (k' a)) -> sim S (x ← r; k x) (x ← r; k' x).
Proof. intros Hk c Hc. apply bind_ok in Hc as (a & Ha & Hc). rewrite Ha. simpl. by eapply Hk. Qed.

Definition npicks (ps : list nat) (a0 : nat) (x x' : nda) : Prop :=
  nd_dtype x' = nd_dtype x /\ picks ps a0 (nd_arr x) (nd_arr x').
Lemma npicks_ret ps a0 dt a a' : picks ps a0 a a' -> sim (npicks ps a0) (Ok (Nda dt a)) (Ok (Nda dt a')).
Proof. intros H. apply sim_ret. by split. Qed.
Lemma npicks_ndim ps a0 x x' : npicks ps a0 x x' -> nd_ndim x' = nd_ndim x.
Proof. intros [_ H]. unfold nd_ndim, nd_shape. by eapply picks_ndim. Qed.

Lemma size_of_0 sh : size_of sh = 0 <-> 0 ∈ sh.
Proof.
  unfold size_of. induction sh as [|n sh IH]; simpl; [split; [done|by intros ?%elem_of_nil]|].
  rewrite elem_of_cons, <-IH. destruct n; split; intros H; try lia; try (destruct H; lia).
Qed.
Lemma picks_size0 {A} ps a0 (a a' : arr A) : picks ps a0 a a' -> ps <> [] -> size_of (shape a') = 0 <-> size_of (shape a) = 0.
Proof.
  intros (_ & _ & (n & Hn & Hps) & Hs & _) Hne. rewrite !size_of_0, Hs. rewrite !elem_of_list_lookup.
  assert (n <> 0) as Hn0 by (destruct ps as [|p ps]; [done|]; apply Forall_cons in Hps; lia).
  assert (length ps <> 0) as Hp0 by (by destruct ps).
  split; intros [i Hi]; exists i; destruct (decide (i = a0)) as [->|Hia].
  - rewrite list_lookup_insert in Hi by (by eapply lookup_lt_Some). congruence.
  - by rewrite list_lookup_insert_ne in Hi.
  - congruence.
  - by rewrite list_lookup_insert_ne.
Qed.
Lemma picks_full {A} ps a0 sh n (v : A) : sh !! a0 = Some n -> Forall (fun p => p < n) ps ->
  picks ps a0 (full sh v) (full (<[a0 := length ps]> sh) v).
Proof.
  intros Hn Hps. split_and!; [apply full_wf|apply full_wf|by exists n|done|]. intros idx Hr. simpl in Hr.
  destruct (pick_at_range ps a0 sh n idx Hn Hps Hr) as (k & p & _ & _ & -> & Hri). simpl. rewrite !get_full. by rewrite !decide_True.
Qed.
Lemma picks_full_like {A B} ps a0 (a a' : arr A) (v : B) : picks ps a0 a a' -> picks ps a0 (full (shape a) v) (full (shape a') v).
Proof. intros (_ & _ & (n & Hn & Hps) & -> & _). by eapply picks_full. Qed.
(** Every element of the picked array is one of the other. *)
Lemma picks_elems {A} ps a0 (a a' : arr A) v : picks ps a0 a a' -> v ∈ data a' -> v ∈ data a.
Proof.
  intros (Hwf & Hwf' & (n & Hn & Hps) & Hs & Hg) Hv. apply elem_of_data in Hv as (idx & Hv); [|done].
  assert (Hr : in_range (shape a') idx) by (apply (get_is_Some a' idx Hwf'); eauto).
  rewrite (Hg idx Hr) in Hv. rewrite Hs in Hr. destruct (pick_at_range ps a0 _ n idx Hn Hps Hr) as (k & p & _ & _ & Hp & Hri).
  rewrite Hp in Hv. simpl in Hv. apply elem_of_data; eauto.
Qed.

(** * larrys *)
Definition lpicks (ps : list nat) (a0 : nat) (l l' : list lab) (y y' : larry) : Prop :=
  valid y /\ valid y' /\ npicks ps a0 (lx y) (lx y') /\ llabel y !! a0 = Some l /\
  llabel y' = <[a0 := l']> (llabel y) /\ Forall2 (fun p x => l !! p = Some x) ps l'.

Lemma pick_at_S ps a0 i idx : pick_at ps (S a0) (i :: idx) = cons i <$> pick_at ps a0 idx.
Proof. unfold pick_at. simpl. destruct (idx !! a0) as [k|]; simpl; [|done]. by destruct (ps !! k). Qed.
Lemma labels_at_repick (label : list (list lab)) a0 l l' ps idx ls :
  Forall2 (fun p x => l !! p = Some x) ps l' -> label !! a0 = Some l -> labels_at (<[a0 := l']> label) idx ls ->
  exists i, pick_at ps a0 idx = Some i /\ labels_at label i ls.
Proof.
  intros Hps. revert a0 idx ls. induction label as [|t label IH]; intros a0 idx ls Ha H; [done|].
  destruct a0 as [|a0]; simpl in *.
  - injection Ha as ->. inversion H as [|? k x ? idx' ls' Hx H']; subst.
    destruct (Forall2_lookup_r _ _ _ _ _ Hps Hx) as (p & Hp & Hlp). exists (p :: idx'). unfold pick_at. simpl. rewrite Hp. simpl.
    split; [done|]. by constructor.
  - inversion H as [|? k x ? idx' ls' Hx H']; subst. destruct (IH a0 idx' ls' Ha H') as (i & Hi & Hl). exists (k :: i).
    rewrite pick_at_S, Hi. split; [done|]. by constructor.
Qed.
Lemma positions_of (l l' : list lab) : (forall x, x ∈ l' -> x ∈ l) -> exists ps, Forall2 (fun p x => l !! p = Some x) ps l'.
Proof.
  induction l' as [|x l' IH]; intros H; [by exists []|]. destruct IH as [ps Hps]; [intros z Hz; apply H; by constructor|].
  destruct (elem_of_list_lookup_1 l x) as [p Hp]; [apply H; constructor|]. exists (p :: ps). by constructor.
Qed.
Lemma positions_lt (l l' : list lab) ps : Forall2 (fun p x => l !! p = Some x) ps l' -> Forall (fun p => p < length l) ps.
Proof. intros H. induction H; constructor; [by eapply lookup_lt_Some|done]. Qed.
Lemma grid_insert (label : list (list lab)) a0 l l' ls : label !! a0 = Some l -> (forall x, x ∈ l' -> x ∈ l) ->
  in_grid (<[a0 := l']> label) ls -> in_grid label ls.
Proof.
  intros Ha Hl. revert a0 ls Ha. induction label as [|t label IH]; intros a0 ls Ha H; [done|].
  destruct a0 as [|a0]; simpl in *; inversion H as [|? ? ? ? H1 H2]; subst.
  - injection Ha as ->. constructor; [by apply Hl|done].
  - constructor; [done|]. by eapply IH.
Qed.

Lemma part_lpicks y a0 l' y' : valid y -> part_of y a0 l' y' ->
  exists ps l, lpicks ps a0 l l' y y' /\ length ps = length l'.
Proof.
  intros Hv (Hv' & Hdt & (l & Hl & Hsub) & Hlab & Hc). destruct (positions_of l l' Hsub) as [ps Hps].
  exists ps, l. split; [|by eapply Forall2_length]. split_and!; try done. split; [done|].
  assert (Hs : lshape y = length <$> llabel y) by (symmetry; apply Hv).
  assert (Hs' : lshape y' = length <$> llabel y') by (symmetry; apply Hv').
  split_and!; [apply Hv|apply Hv'| | |].
  - exists (length l). split; [|by eapply positions_lt]. change (lshape y !! a0 = Some (length l)). rewrite Hs, list_lookup_fmap, Hl. done.
  - change (lshape y' = <[a0 := length ps]> (lshape y)). rewrite Hs, Hs', Hlab. rewrite list_fmap_insert. f_equal. symmetry. by eapply Forall2_length.
  - intros idx Hr. change (in_range (lshape y') idx) in Hr. destruct (labels_at_exists (llabel y') idx) as (ls & Hls); [by rewrite <-Hs'|].
    assert (Hg : in_grid (llabel y') ls) by (apply in_grid_labels_at; eauto).
    rewrite Hlab in Hls. destruct (labels_at_repick _ _ _ _ _ _ _ Hps Hl Hls) as (i & Hi & Hli). rewrite <-Hlab in Hls.
    rewrite Hi. simpl. specialize (Hc ls Hg). rewrite (cell_at y' idx ls (valid_nodup _ Hv') Hls), (cell_at y i ls (valid_nodup _ Hv) Hli) in Hc. done.
Qed.
Lemma lpicks_part ps a0 l l' y y' : lpicks ps a0 l l' y y' -> part_of y a0 l' y'.
Proof.
  intros (Hv & Hv' & (Hdt & Hp) & Hl & Hlab & Hps). split_and!; [done|done| |done|].
  - exists l. split; [done|]. intros x Hx. apply elem_of_list_lookup in Hx as [k Hk].
    destruct (Forall2_lookup_r _ _ _ _ _ Hps Hk) as (p & _ & Hlp). apply elem_of_list_lookup. eauto.
  - intros ls Hg. apply in_grid_labels_at in Hg as [idx Hls]. pose proof Hls as Hls'. rewrite Hlab in Hls'.
    destruct (labels_at_repick _ _ _ _ _ _ _ Hps Hl Hls') as (i & Hi & Hli).
    rewrite (cell_at y' idx ls (valid_nodup _ Hv') Hls), (cell_at y i ls (valid_nodup _ Hv) Hli). destruct Hp as (_ & _ & _ & _ & Hg).
    unfold larr. rewrite (Hg idx); [by rewrite Hi|]. change (in_range (lshape y') idx). destruct Hv' as (_ & _ & <- & _). by eapply labels_at_in_range.
Qed.

Lemma picks_nda_wf ps a0 x x' : nda_wf x -> npicks ps a0 x x' -> nda_wf x'.
Proof.
  intros [_ Ht] [Hdt Hp]. split; [apply Hp|]. rewrite Hdt. apply Forall_forall. intros v Hv.
  eapply Forall_forall in Ht; [exact Ht|]. by eapply picks_elems.
Qed.
Lemma lift_label ps a0 l l' label label' x x' : valid (Larry x label) -> npicks ps a0 x x' -> label !! a0 = Some l ->
  label' = <[a0 := l']> label -> Forall2 (fun p x => l !! p = Some x) ps l' -> NoDup l' ->
  lpicks ps a0 l l' (Larry x label) (Larry x' label').
Proof.
  intros Hv Hp Hl Hlab Hps Hnd. split_and!; try done. pose proof Hv as (Hw & Hne & Hsh & Hnds). split_and!.
  - by eapply picks_nda_wf.
  - simpl in *. subst label'. by destruct label, a0.
  - simpl in *. subst label'. rewrite list_fmap_insert. unfold lshape, nd_shape in *. simpl in *. rewrite (picks_shape _ _ _ _ (proj2 Hp)), Hsh.
    f_equal. symmetry. by eapply Forall2_length.
  - simpl in *. subst label'. by apply Forall_insert.
Qed.
Lemma lpicks_nodup ps a0 l l' y y' : lpicks ps a0 l l' y y' -> NoDup l'.
Proof.
  intros (_ & Hv' & _ & Hl & Hlab & _). pose proof (valid_nodup _ Hv') as H. rewrite Hlab in H.
  eapply Forall_lookup_1; [exact H|]. apply list_lookup_insert. by eapply lookup_lt_Some.
Qed.
Lemma lift ps a0 l l' y y' x x' : lpicks ps a0 l l' y y' -> valid (Larry x (llabel y)) -> npicks ps a0 x x' ->
  lpicks ps a0 l l' (Larry x (llabel y)) (Larry x' (llabel y')).
Proof. intros H Hv Hp. pose proof H as (_ & _ & _ & Hl & Hlab & Hps). eapply lift_label; try done. by eapply lpicks_nodup. Qed.
Lemma lift_less ps a0 ax l l' y y' x x' : lpicks ps a0 l l' y y' -> ax <> a0 -> ax < length (llabel y) ->
  valid (Larry x (remove_at ax (llabel y))) -> npicks ps (axis_left ax a0) x x' ->
  lpicks ps (axis_left ax a0) l l' (Larry x (remove_at ax (llabel y))) (Larry x' (remove_at ax (llabel y'))).
Proof.
  intros H Hne Hax Hv Hp. pose proof H as (_ & _ & _ & Hl & Hlab & Hps). eapply lift_label; try done; [by rewrite remove_at_less| |by eapply lpicks_nodup].
  rewrite Hlab. apply remove_at_insert_ne; [done|done|by eapply lookup_lt_Some].
Qed.

(** * Cells *)
Definition rel (ps : list nat) (a0 : nat) (y y' z z' : larry) : Prop :=
  exists x x', z = Larry x (llabel y) /\ z' = Larry x' (llabel y') /\ npicks ps a0 x x'.
Definition commutes (f : larry -> res larry) : Prop := forall ps a0 y y',
  valid y -> valid y' -> npicks ps a0 (lx y) (lx y') -> sim (rel ps a0 y y') (f y) (f y').
Lemma rel_ret ps a0 y y' x x' : npicks ps a0 x x' -> sim (rel ps a0 y y') (Ok (Larry x (llabel y))) (Ok (Larry x' (llabel y'))).
Proof. intros H. apply sim_ret. by exists x, x'. Qed.
Lemma rel_nda ps a0 y y' dt a a' : picks ps a0 a a' -> sim (rel ps a0 y y') (Ok (Larry (Nda dt a) (llabel y))) (Ok (Larry (Nda dt a') (llabel y'))).
Proof. intros H. by apply rel_ret. Qed.
Lemma rel_same ps a0 y y' : npicks ps a0 (lx y) (lx y') -> sim (rel ps a0 y y') (Ok y) (Ok y').
Proof. intros H. destruct y, y'. by apply rel_ret. Qed.
Lemma rel_bind ps a0 y y' (r r' : res nda) : sim (npicks ps a0) r r' ->
  sim (rel ps a0 y y') (x ← r; Ok (Larry x (llabel y))) (x ← r'; Ok (Larry x (llabel y'))).
Proof. intros H. eapply sim_bind; [exact H|]. intros x x' Hx. by apply rel_ret. Qed.

Lemma np_neg_sim ps a0 x x' : npicks ps a0 x x' -> sim (npicks ps a0) (np_neg x) (np_neg x').
Proof. intros [Hd Hp]. unfold np_neg. rewrite Hd. destruct (nd_dtype x); try apply sim_err; by apply npicks_ret, picks_amap. Qed.
Lemma neg_commutes : commutes larry_neg.
Proof. intros ps a0 y y' Hv Hv' Hp. by apply rel_bind, np_neg_sim. Qed.
Lemma abs_commutes : commutes larry_abs.
Proof.
  intros ps a0 y y' Hv Hv' Hp. unfold larry_abs, ldtype. rewrite (proj1 Hp).
  destruct (nd_dtype (lx y)); try apply sim_err; try (by apply rel_same); by apply rel_nda, picks_amap, Hp.
Qed.
Lemma sign_commutes : commutes larry_sign.
Proof.
  intros ps a0 y y' Hv Hv' Hp. unfold larry_sign, ldtype. rewrite (proj1 Hp).
  destruct (nd_dtype (lx y)); try apply sim_err; by apply rel_nda, picks_amap, Hp.
Qed.
Lemma test_commutes p : commutes (fun y => x ← np_test p (lx y); Ok (Larry x (llabel y))).
Proof.
  intros ps a0 y y' Hv Hv' Hp. apply rel_bind. unfold np_test. rewrite (proj1 Hp).
  destruct (nd_dtype (lx y)); try apply sim_err; by apply npicks_ret, picks_amap, Hp.
Qed.
Lemma invert_commutes : commutes larry_invert.
Proof.
  intros ps a0 y y' Hv Hv' Hp. unfold larry_invert, ldtype. rewrite (proj1 Hp).
  destruct (nd_dtype (lx y)); try apply sim_err; by apply rel_nda, picks_amap, Hp.
Qed.
Lemma clip_commutes lo hi : commutes (fun y => larry_clip y lo hi).
Proof.
  intros ps a0 y y' Hv Hv' Hp. unfold larry_clip, ldtype. rewrite (proj1 Hp).
  apply sim_bind_same. intros l _. apply sim_bind_same. intros h _. destruct (num_ltb h l); [apply sim_err|].
  destruct (nd_dtype (lx y)); try apply sim_err; [by apply rel_nda, picks_amap, Hp|].
  destruct lo; try apply sim_err. destruct hi; try apply sim_err. by apply rel_nda, picks_amap, Hp.
Qed.
Lemma copy_eq y : larry_copy y = y.
Proof. by destruct y. Qed.
Lemma nan_replace_commutes v : commutes (fun y => nan_replace y v).
Proof.
  intros ps a0 y y' Hv Hv' Hp. unfold nan_replace, ldtype. rewrite (proj1 Hp), !copy_eq.
  destruct (nd_dtype (lx y)); try (by apply rel_same); apply sim_bind_same; intros r _; [by apply rel_nda, picks_amap, Hp|by apply rel_same].
Qed.
Lemma ismissing_picks ps a0 x x' : npicks ps a0 x x' -> picks ps a0 (ismissing x) (ismissing x').
Proof.
  intros [Hd Hp]. unfold ismissing. rewrite Hd. destruct (missing_marker _) as [mm|]; [|by apply picks_full_like].
  destruct (val_isnan mm); by apply picks_amap.
Qed.
Lemma ismissing_commutes : commutes (fun y => Ok (larry_ismissing y)).
Proof. intros ps a0 y y' Hv Hv' Hp. by apply rel_nda, picks_amap, ismissing_picks. Qed.
Lemma copy_commutes : commutes (fun y => Ok (larry_copy y)).
Proof. intros ps a0 y y' Hv Hv' Hp. rewrite !copy_eq. by apply rel_same. Qed.

Lemma elementwise_scalar dt f x v dv : elementwise dt f x (Nda dv (Arr [] [v])) =
  (b ← of_opt TypeError (build (nd_shape x) (fun idx => u ← aget (nd_arr x) idx; f u v)); Ok (Nda dt b)).
Proof.
  unfold elementwise. rewrite (proj2 (fits_bshape _ _)) by apply fits_nil. simpl. f_equal. f_equal.
  unfold build. f_equal. apply mapM_ext_elem. intros idx Hidx.
  assert (in_range (nd_shape x) idx) as Hr by (by apply elem_of_indices).
  rewrite (bindex_same _ _ Hr). destruct (aget (nd_arr x) idx); [|done]. done.
Qed.
Lemma elementwise_scalar_sim ps a0 dt f x x' v dv : npicks ps a0 x x' ->
  sim (npicks ps a0) (elementwise dt f x (Nda dv (Arr [] [v]))) (elementwise dt f x' (Nda dv (Arr [] [v]))).
Proof.
  intros [Hd Hp]. rewrite !elementwise_scalar. intros z Hz. apply bind_ok in Hz as (b & Hb & [= <-]). apply of_opt_ok in Hb.
  destruct (picks_build ps a0 _ _ _ (fun idx => u ← aget (nd_arr x') idx; f u v) _ Hp Hb) as (b' & Hb' & Hpb).
  { intros idx i Hr Hi Hri. destruct Hp as (_ & _ & _ & _ & Hg). by rewrite (Hg idx Hr), Hi. }
  unfold nd_shape. rewrite Hb'. simpl. eexists. split; [done|]. by split.
Qed.
Lemma scalar_nda_ok v a : scalar_nda v = Ok a -> exists dv, a = Nda dv (Arr [] [v]).
Proof. unfold scalar_nda. rewrite bind_ok. intros (dt & _ & [= <-]). by eexists. Qed.
Lemma arith_commutes op v : commutes (fun y => larry_arith op y (OpScalar v)).
Proof.
  intros ps a0 y y' Hv Hv' Hp. cbn [larry_arith larry_binary]. apply sim_bind_same. intros a Ha. apply scalar_nda_ok in Ha as [dv ->].
  apply rel_bind. unfold np_arith. rewrite (proj1 Hp). apply sim_bind_same. intros dt _. by apply elementwise_scalar_sim.
Qed.
Lemma logic_commutes op v : commutes (fun y => larry_logic op y (OpScalar v)).
Proof.
  intros ps a0 y y' Hv Hv' Hp. cbn [larry_logic larry_binary]. apply sim_bind_same. intros a Ha. apply scalar_nda_ok in Ha as [dv ->].
  apply rel_bind. unfold np_logic. rewrite (proj1 Hp). apply sim_bind_same. intros dt _. by apply elementwise_scalar_sim.
Qed.
Lemma rarith_commutes op v : commutes (fun y => larry_rarith op y (OpScalar v)).
Proof.
  intros ps a0 y y' Hv Hv' Hp. unfold larry_rarith.
  assert (D : forall op, sim (rel ps a0 y y') (larry_rdivide op y (OpScalar v)) (larry_rdivide op y' (OpScalar v))).
  { intros op'. cbn [larry_rdivide]. apply sim_bind_same. intros a Ha. apply scalar_nda_ok in Ha as [dv ->].
    apply rel_bind. unfold np_arith. rewrite (proj1 Hp). apply sim_bind_same. intros dt _. rewrite !(elementwise_swap _ _ (Nda dv _)).
    by apply elementwise_scalar_sim. }
  destruct op; try apply D; try by apply arith_commutes.
  unfold larry_rsub. eapply sim_bind; [by apply arith_commutes|]. intros z z' (x & x' & -> & -> & Hx).
  unfold larry_neg. simpl. by apply rel_bind, np_neg_sim.
Qed.
Lemma np_compare_sim ps a0 op x x' v a : scalar_nda v = Ok a -> npicks ps a0 x x' -> forall r, np_compare op x a = Ok (inl r) ->
  exists r', np_compare op x' a = Ok (inl r') /\ npicks ps a0 r r'.
Proof.
  intros Ha Hp r. apply scalar_nda_ok in Ha as [dv ->]. unfold np_compare. rewrite (proj1 Hp). cbn [nd_dtype].
  assert (K : forall r, match elementwise DBool (cmp_elem op) x (Nda dv (Arr [] [v])), op with
      | Ok r, _ => Ok (inl r) | Err ValueError, CEq => Ok (inr false) | Err ValueError, CNe => Ok (inr true) | Err e, _ => Err e end = Ok (inl r) ->
    exists r', match elementwise DBool (cmp_elem op) x' (Nda dv (Arr [] [v])), op with
      | Ok r, _ => Ok (inl r) | Err ValueError, CEq => Ok (inr false) | Err ValueError, CNe => Ok (inr true) | Err e, _ => Err e end = Ok (inl r') /\ npicks ps a0 r r').
  { intros r0 H. destruct (elementwise DBool (cmp_elem op) x _) as [r1|e] eqn:E.
    - injection H as <-. destruct (elementwise_scalar_sim ps a0 DBool (cmp_elem op) x x' v dv Hp _ E) as (r' & -> & Hr). eauto.
    - destruct e; try done; destruct op; done. }
  destruct (nd_dtype x), dv; try done; try apply K; destruct op; done.
Qed.
Lemma compare_commutes op v : commutes (fun y => compare_to op y v).
Proof.
  intros ps a0 y y' Hv Hv' Hp z. unfold compare_to. rewrite bind_ok. intros (o & Ho & Hz).
  destruct o as [z0|]; [|done]. injection Hz as ->. unfold larry_compare in *. cbn beta zeta in *.
  apply bind_ok in Ho as (a & Ha & Ho). apply bind_ok in Ho as ([x|b] & Hx & [= <-]).
  destruct (np_compare_sim _ _ _ _ _ _ _ Ha Hp _ Hx) as (x' & Hx' & Hpx). rewrite Ha. cbn [mbind res_bind]. rewrite Hx'. cbn [mbind res_bind].
  eexists. split; [done|]. by exists x, x'.
Qed.
Lemma ufunc_commutes f : commutes (larry_ufunc f).
Proof.
  intros ps a0 y y' Hv Hv' Hp. unfold larry_ufunc, ldtype. rewrite (proj1 Hp).
  destruct (nd_dtype (lx y)); try apply sim_err; by apply rel_nda, picks_amap, Hp.
Qed.
Lemma power_commutes pow q : commutes (fun y => larry_power pow y q).
Proof.
  intros ps a0 y y' Hv Hv' Hp. unfold larry_power, ldtype. rewrite (proj1 Hp).
  destruct (nd_dtype (lx y)), q; try apply sim_err; try (by apply ufunc_commutes).
  case_decide; [apply sim_err|]. by apply rel_nda, picks_amap, Hp.
Qed.
Lemma putmask_scalar_sim ps a0 x x' m m' v : npicks ps a0 x x' -> picks ps a0 m m' -> shape m = nd_shape x ->
  sim (npicks ps a0) (putmask_scalar x m v) (putmask_scalar x' m' v).
Proof.
  intros [Hd Hp] Hm Hs. unfold putmask_scalar. rewrite Hd. apply sim_bind_same. intros r _. apply npicks_ret.
  by apply picks_azip.
Qed.
Lemma keep_x_commutes op v : commutes (fun y => keep_x y op v false).
Proof.
  intros ps a0 y y' Hv Hv' Hp z. unfold keep_x. cbn [andb]. rewrite bind_ok. intros (o & Ho & H). apply of_opt_ok in Ho as ->.
  apply bind_ok in H as (a & Ha & H). apply bind_ok in H as ([r|b] & Hr & H); [|by destruct (ldtype y)].
  destruct (np_compare_sim _ _ _ _ _ _ _ Ha Hp _ Hr) as (r' & Hr' & Hpr). cbn [of_opt mbind res_bind]. rewrite Ha. cbn [mbind res_bind]. rewrite Hr'. cbn [mbind res_bind].
  assert (Hsr : shape (nd_arr r) = nd_shape (lx y)).
  { apply scalar_nda_ok in Ha as [dv ->]. unfold np_compare in Hr.
    assert (E : elementwise DBool (cmp_elem o) (lx y) (Nda dv (Arr [] [v])) = Ok r).
    { destruct (elementwise DBool (cmp_elem o) (lx y) _) as [r1|e] eqn:E; cbn [nd_dtype] in Hr.
      - destruct (nd_dtype (lx y)), dv; try done; destruct o; try done; congruence.
      - destruct (nd_dtype (lx y)), dv, e, o; done. }
    rewrite elementwise_scalar in E. apply bind_ok in E as (b & Hb & [= <-]). apply of_opt_ok, build_Some in Hb. apply Hb. }
  assert (K : sim (rel ps a0 y y') (x ← blank (lx y) r; Ok (Larry x (llabel y))) (x ← blank (lx y') r'; Ok (Larry x (llabel y')))).
  { apply rel_bind. apply putmask_scalar_sim; [done|apply picks_amap, Hpr|done]. }
  specialize (K z). unfold ldtype in *. rewrite (proj1 Hp). destruct (nd_dtype (lx y)); try done; by apply K.
Qed.
Lemma mapR_amap (f : val -> res val) l vs : mapR f l = Ok vs -> vs = (fun v => match f v with Ok w => w | Err _ => v end) <$> l.
Proof. rewrite mapR_ok. induction 1 as [|v w l vs Hw H IH]; [done|]. csimpl. rewrite Hw. by f_equal. Qed.
Lemma astype_commutes dt : commutes (fun y => larry_astype y dt).
Proof.
  intros ps a0 y y' Hv Hv' Hp. apply rel_bind. intros z Hz. unfold np_astype in *. rewrite (proj1 Hp).
  apply bind_ok in Hz as (vs & Hvs & [= <-]).
  destruct (mapR_total (cast (nd_dtype (lx y)) dt) (data (nd_arr (lx y')))) as [vs' Hvs'].
  { intros v Hin. eapply picks_elems in Hin; [|apply Hp]. apply mapR_ok in Hvs.
    apply elem_of_list_lookup in Hin as [k Hk]. destruct (Forall2_lookup_l _ _ _ _ _ Hvs Hk) as (w & _ & Hw). eauto. }
  rewrite Hvs'. simpl. eexists. split; [done|]. split; [done|]. simpl.
  rewrite (mapR_amap _ _ _ Hvs), (mapR_amap _ _ _ Hvs'). apply (picks_amap ps a0 (nd_arr (lx y)) (nd_arr (lx y'))). apply Hp.
Qed.

Lemma cell_commutes f : cell_method f -> commutes f.
Proof.
  intros H. destruct H.
  - apply copy_commutes.
  - apply copy_commutes.
  - apply neg_commutes.
  - apply abs_commutes.
  - apply sign_commutes.
  - apply test_commutes.
  - apply test_commutes.
  - apply test_commutes.
  - apply invert_commutes.
  - apply clip_commutes.
  - apply nan_replace_commutes.
  - apply ismissing_commutes.
  - apply arith_commutes.
  - apply rarith_commutes.
  - apply logic_commutes.
  - apply compare_commutes.
  - apply ufunc_commutes.
  - apply power_commutes.
  - apply keep_x_commutes.
  - apply astype_commutes.
Qed.
Lemma cell_valid f y z : cell_method f -> valid y -> f y = Ok z -> valid z.
Proof.
  intros H Hv Hz. destruct H.
  - injection Hz as <-. by apply copy_valid.
  - injection Hz as <-. by apply copy_valid.
  - by eapply neg_valid.
  - by eapply abs_valid.
  - by eapply sign_valid.
  - by eapply test_valid.
  - by eapply test_valid.
  - by eapply test_valid.
  - by eapply invert_valid.
  - by eapply clip_valid.
  - by eapply nan_replace_valid.
  - injection Hz as <-. by apply ismissing_valid.
  - by eapply arith_scalar_valid.
  - by eapply rarith_scalar_valid.
  - by eapply logic_scalar_valid.
  - unfold compare_to in Hz. apply bind_ok in Hz as ([z0|] & Ho & Hz); [|done]. injection Hz as ->. by eapply compare_scalar_valid.
  - by eapply ufunc_valid.
  - by eapply power_valid.
  - by eapply keep_x_valid.
  - by eapply astype_valid.
Qed.
