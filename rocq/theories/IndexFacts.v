(** Lemmas about indexing. *)
From Verif Require Export Index CutFacts.

(** * One entry of an index *)

Definition sel_opt (s : sel) : option (list lab) := match s with At _ => None | Among l => Some l end.
Definition sel_of (l : list lab) (r : ritem) : option sel :=
  match r with
  | RInt p => x ← l !! p; Some (At x)
  | RSlice ps | RList ps => l' ← mapM (l !!.) ps; Some (Among l')
  end.

Lemma mapM_lt_is_Some {A} (l : list A) ps : Forall (fun p => p < length l) ps -> is_Some (mapM (l !!.) ps).
Proof. intros H. apply mapM_is_Some. eapply Forall_impl; [exact H|]. intros p Hp. by apply lookup_lt_is_Some. Qed.
Lemma mapM_lt_inv {A} (l : list A) ps xs : mapM (l !!.) ps = Some xs -> Forall (fun p => p < length l) ps.
Proof.
  intros H. apply Forall_forall. intros p Hp. apply lookup_lt_is_Some.
  apply elem_of_list_lookup in Hp as [i Hi]. rewrite mapM_Some in H.
  destruct (Forall2_lookup_l _ _ _ _ _ H Hi) as (x & _ & Hx). eauto.
Qed.

Lemma true_from_lt n bs p : p ∈ true_from n bs <-> n <= p /\ bs !! (p - n) = Some true.
Proof.
  revert n p. induction bs as [|b bs IH]; intros n p; simpl.
  - split; [by intros ?%elem_of_nil|]. by intros [_ ?].
  - destruct b; rewrite ?elem_of_cons, IH.
    + split.
      * intros [-> | [Hle Hp]]; [by rewrite Nat.sub_diag|]. split; [lia|]. by replace (p - n) with (S (p - S n)) by lia.
      * intros [Hle Hp]. destruct (decide (p = n)) as [->|Hne]; [by left|]. right. split; [lia|].
        by replace (p - n) with (S (p - S n)) in Hp by lia.
    + split.
      * intros [Hle Hp]. split; [lia|]. by replace (p - n) with (S (p - S n)) by lia.
      * intros [Hle Hp]. destruct (decide (p = n)) as [->|Hne]; [by rewrite Nat.sub_diag in Hp|]. split; [lia|].
        by replace (p - n) with (S (p - S n)) in Hp by lia.
Qed.
Lemma elem_of_true_positions bs p : p ∈ true_positions bs <-> bs !! p = Some true.
Proof. unfold true_positions. rewrite true_from_lt, Nat.sub_0_r. split; [by intros []|]. intros ?; split; [lia|done]. Qed.
Lemma NoDup_true_from n bs : NoDup (true_from n bs).
Proof.
  revert n. induction bs as [|b bs IH]; intros n; simpl; [constructor|]. destruct b; [|done].
  constructor; [|done]. rewrite true_from_lt. lia.
Qed.
Lemma chosen_positions (bs : list bool) (l l2 : list lab) n :
  (forall i, l !! i = l2 !! (n + i)) -> (forall i, bs !! i = Some true -> i < length l) ->
  mapM (l2 !!.) (true_from n bs) = Some (chosen bs l).
Proof.
  revert n l. induction bs as [|b bs IH]; intros n l Hl Hb; simpl; [done|].
  destruct l as [|x l].
  { assert (b = false) as -> by (destruct b; [pose proof (Hb 0 eq_refl); simpl in *; lia|done]).
    rewrite (IH (S n) []); [by destruct bs| |].
    - intros i. rewrite lookup_nil. specialize (Hl (S i)). rewrite lookup_nil in Hl. rewrite Hl. f_equal. lia.
    - intros i Hi. specialize (Hb (S i) Hi). simpl in Hb. lia. }
  assert (HIH : mapM (l2 !!.) (true_from (S n) bs) = Some (chosen bs l)).
  { apply IH.
    - intros i. replace (S n + i) with (n + S i) by lia. rewrite <-(Hl (S i)). done.
    - intros i Hi. specialize (Hb (S i) Hi). simpl in Hb. lia. }
  destruct b; [|done]. simpl. specialize (Hl 0). simpl in Hl. rewrite Nat.add_0_r in Hl. rewrite <-Hl. simpl. by rewrite HIH.
Qed.
Lemma true_positions_mapM (bs : list bool) (l : list lab) :
  (forall i, bs !! i = Some true -> i < length l) -> mapM (l !!.) (true_positions bs) = Some (chosen bs l).
Proof. intros H. apply chosen_positions; [done|exact H]. Qed.
Lemma chosen_kept (bs : list bool) (l : list lab) (P : lab -> Prop) :
  length bs = length l -> (forall i b x, bs !! i = Some b -> l !! i = Some x -> b = true <-> P x) -> kept P l (chosen bs l).
Proof.
  revert l. induction bs as [|b bs IH]; intros [|x l] Hlen H; try done; simpl; [constructor|].
  assert (kept P l (chosen bs l)) by (apply IH; [by injection Hlen|intros i; exact (H (S i))]).
  pose proof (H 0 b x eq_refl eq_refl) as Hb. destruct b; constructor; naive_solver.
Qed.
Lemma kept_det (P : lab -> Prop) l l1 l2 : kept P l l1 -> kept P l l2 -> l1 = l2.
Proof.
  intros H. revert l2. induction H as [|x l l' HP H IH|x l l' HP H IH]; intros l2 H2; inversion H2; subst; try done.
  - f_equal. auto.
  - auto.
Qed.

Lemma bools_of_chosen m (l : list lab) :
  valid m -> ldtype m = DBool -> llabel m = [l] ->
  length (bools_of m) = length l /\ kept (fun x => cell m [x] = Some (VBool true)) l (chosen (bools_of m) l).
Proof.
  intros Hv Hd Hl. pose proof (valid_shape m Hv) as Hs. rewrite Hl in Hs. simpl in Hs.
  assert (Hlen : length (bools_of m) = length l).
  { unfold bools_of. rewrite fmap_length. pose proof (valid_wf m Hv) as Hw. unfold arr_wf, asize in Hw. rewrite Hw.
    change (shape (larr m)) with (lshape m). rewrite <-Hs. simpl. lia. }
  split; [done|]. apply chosen_kept; [done|]. intros i b x Hb Hx.
  unfold bools_of in Hb. rewrite list_lookup_fmap, fmap_Some in Hb. destruct Hb as (v & Hv' & ->).
  assert (Hla : labels_at (llabel m) [i] [x]) by (rewrite Hl; repeat constructor; done).
  destruct (valid_cell_at m [i] [x] Hv Hla) as (w & Hg & Hc). rewrite Hc.
  apply get_in_range in Hg as Hr. rewrite get_ravel in Hg by done.
  change (shape (larr m)) with (lshape m) in *. rewrite <-Hs in Hg. simpl in Hg.
  assert (w = v) as ->.
  { replace (i * 1 + 0) with i in Hg by lia. congruence. }
  pose proof (valid_cell_typed m [x] v Hv Hc) as Ht. rewrite Hd in Ht. destruct v; try done. naive_solver.
Qed.

Lemma item_sound l it o r :
  item_ok it -> item_label (length l) l it = Ok o -> resolve (length l) it = Ok r ->
  exists s, selects l it s /\ sel_of l r = Some s /\ o = sel_opt s.
Proof.
  intros Hok Ho Hr. destruct it as [z|s|zs|bs|m]; simpl in *.
  - case_decide; [done|]. injection Ho as <-. apply bind_ok in Hr as (p & Hp & [= <-]). apply of_opt_ok in Hp.
    assert (is_Some (l !! p)) as [x Hx]. { apply lookup_lt_is_Some. by eapply py_index_lt. }
    exists (At x). simpl. rewrite Hx. split_and!; [|done|done]. unfold py_get. by rewrite Hp.
  - apply bind_ok in Ho as (l' & Hl' & [= <-]). apply bind_ok in Hr as (ps & Hps & [= <-]).
    pose proof Hl' as Hl2. apply py_slice_Ok in Hl2 as (ps' & Hps' & Hm). rewrite Hps in Hps'. injection Hps' as <-.
    exists (Among l'). simpl. by rewrite Hm.
  - apply bind_ok in Ho as (l' & Hl' & [= <-]). apply bind_ok in Hr as (ps & Hps & [= <-]).
    apply of_opt_ok in Hl', Hps. exists (Among l'). simpl.
    split_and!; [by apply mapM_Some| |done]. unfold py_get in Hl'. rewrite mapM_bind, Hps in Hl'. simpl in Hl'. by rewrite Hl'.
  - apply bind_ok in Ho as (l' & Hl' & [= <-]). apply of_opt_ok in Hl'. case_decide as Hlt; [|done]. injection Hr as <-.
    assert (Hb : forall i, bs !! i = Some true -> i < length l).
    { intros i Hi. rewrite Forall_forall in Hlt. apply Hlt. by apply elem_of_true_positions. }
    exists (Among l'). simpl. rewrite Hl'. split_and!; [|done|done|done].
    rewrite (true_positions_mapM bs l Hb) in Hl'. by injection Hl' as <-.
  - destruct (decide (ldtype m <> DBool)) as [|Hd]; [done|]. destruct (decide (lndim m <> 1)) as [|Hn]; [done|].
    destruct (decide (llabel m !! 0 <> Some l)) as [|Hl]; [done|].
    apply dec_stable in Hd, Hn, Hl. apply bind_ok in Ho as (l' & Hl' & [= <-]). apply of_opt_ok in Hl'.
    case_decide as Hlt; [|done]. injection Hr as <-.
    assert (Hml : llabel m = [l]).
    { rewrite <-(valid_ndim m Hok) in Hn. destruct (llabel m) as [|a [|b t]]; try done. simpl in Hl. congruence. }
    destruct (bools_of_chosen m l Hok Hd Hml) as [Hlen Hk].
    exists (Among l'). simpl. rewrite Hl'. split_and!; [done|done| |done|done].
    rewrite true_positions_mapM in Hl'.
    { injection Hl' as <-. exact Hk. }
    intros i Hi. rewrite <-Hlen. by eapply lookup_lt_Some.
Qed.

Lemma mapM_fmap_Some {A B} (f : A -> option B) l k : Forall2 (fun x y => f x = Some y) l k -> mapM f l = Some k.
Proof. by rewrite mapM_Some. Qed.

Lemma item_complete l it s :
  item_ok it -> selects l it s ->
  exists r, resolve (length l) it = Ok r /\ sel_of l r = Some s /\ item_label (length l) l it = Ok (sel_opt s).
Proof.
  intros Hok Hs. destruct it as [z|sl|zs|bs|m], s as [x|l']; try done; simpl in *.
  - apply py_get_mod in Hs as (p & Hp & Hx). rewrite Hp. exists (RInt p). simpl. rewrite Hx. split_and!; try done.
    rewrite decide_False; [done|]. apply py_index_Some in Hp. lia.
  - pose proof Hs as (ps & Hps & Hm)%py_slice_Ok. rewrite Hps, Hs. exists (RSlice ps). simpl. by rewrite Hm.
  - apply mapM_fmap_Some in Hs. rewrite Hs. unfold py_get in Hs. rewrite mapM_bind in Hs.
    apply bind_Some in Hs as (ps & Hps & Hm). rewrite Hps. exists (RList ps). simpl. by rewrite Hm.
  - destruct Hs as [-> Hb]. pose proof (true_positions_mapM bs l Hb) as Hm. rewrite Hm.
    rewrite decide_True by (by eapply mapM_lt_inv). exists (RList (true_positions bs)). simpl. by rewrite Hm.
  - destruct Hs as (Hd & Hl & Hk). destruct (bools_of_chosen m l Hok Hd Hl) as [Hlen Hk2].
    assert (l' = chosen (bools_of m) l) as -> by (by eapply kept_det).
    assert (Hb : forall i, bools_of m !! i = Some true -> i < length l).
    { intros i Hi. rewrite <-Hlen. by eapply lookup_lt_Some. }
    pose proof (true_positions_mapM _ l Hb) as Hm. rewrite Hm.
    rewrite decide_True by (by eapply mapM_lt_inv). exists (RList (true_positions (bools_of m))). simpl. rewrite Hm.
    split_and!; [done|done|].
    rewrite (decide_False (P := ldtype m <> DBool)) by (by intros []).
    rewrite (decide_False (P := lndim m <> 1)) by (rewrite <-(valid_ndim m Hok), Hl; by intros []).
    rewrite decide_False; [done|]. rewrite Hl. simpl. by intros [].
Qed.

(** Without the label checks. *)
Lemma resolve_sel l it r : resolve (length l) it = Ok r -> exists s, sel_of l r = Some s.
Proof.
  intros Hr. destruct it as [z|s|zs|bs|m]; simpl in *.
  - apply bind_ok in Hr as (p & Hp & [= <-]). apply of_opt_ok in Hp.
    assert (is_Some (l !! p)) as [x Hx]. { apply lookup_lt_is_Some. by eapply py_index_lt. }
    simpl. rewrite Hx. by eexists.
  - apply bind_ok in Hr as (ps & Hps & [= <-]). apply slice_positions_ok in Hps as [H _].
    destruct (mapM_lt_is_Some l ps H) as [l' Hl']. simpl. rewrite Hl'. by eexists.
  - apply bind_ok in Hr as (ps & Hps & [= <-]). apply of_opt_ok in Hps.
    destruct (mapM_lt_is_Some l ps) as [l' Hl'].
    { apply mapM_Some in Hps. eapply Forall2_Forall_r; [exact Hps|]. apply Forall_true. intros z i. by apply py_index_lt. }
    simpl. rewrite Hl'. by eexists.
  - case_decide as H; [|done]. injection Hr as <-. destruct (mapM_lt_is_Some l _ H) as [l' Hl']. simpl. rewrite Hl'. by eexists.
  - case_decide as H; [|done]. injection Hr as <-. destruct (mapM_lt_is_Some l _ H) as [l' Hl']. simpl. rewrite Hl'. by eexists.
Qed.

(** * Index tuples *)

(** The position in [x] for a position in the result, entry by entry. *)
Fixpoint weave_in (rs : list ritem) (idx : list nat) : option (list nat) :=
  match rs, idx with
  | [], [] => Some []
  | RInt p :: rs', _ => r ← weave_in rs' idx; Some (p :: r)
  | RList ps :: rs', i :: idx' | RSlice ps :: rs', i :: idx' => p ← ps !! i; r ← weave_in rs' idx'; Some (p :: r)
  | _, _ => None
  end.
Definition sels (label : list (list lab)) (rs : list ritem) (ss : list sel) : Prop :=
  Forall3 (fun l r s => sel_of l r = Some s) label rs ss.

Lemma weave_in_labels label rs ss idx ls :
  sels label rs ss -> labels_at (sel_labels ss) idx ls ->
  exists idx0 full, weave_in rs idx = Some idx0 /\ sel_full ss ls = Some full /\ labels_at label idx0 full.
Proof.
  intros H. revert idx ls. induction H as [|l r s label rs ss Hs H IH]; intros idx ls Hl.
  { simpl in *. inversion Hl; subst. exists [], []. split_and!; try done; constructor. }
  destruct s as [x|l']; simpl in Hl.
  - destruct (IH _ _ Hl) as (idx0 & full & Hw & Hf & Hla).
    destruct r as [p|ps|ps]; simpl in Hs; [|by apply bind_Some in Hs as (? & _ & [=])..].
    apply bind_Some in Hs as (x' & Hx & [= ->]). simpl. rewrite Hw, Hf. exists (p :: idx0), (x :: full).
    split_and!; try done. by constructor.
  - unfold labels_at in Hl. inversion Hl as [|? i x ? idx' ls' Hi Hl2]; subst.
    destruct (IH _ _ Hl2) as (idx0 & full & Hw & Hf & Hla). simpl. rewrite Hf.
    destruct r as [p|ps|ps]; simpl in Hs; [by apply bind_Some in Hs as (? & _ & [=])|..];
      apply bind_Some in Hs as (x' & Hx & [= ->]); simpl; rewrite Hw;
      (assert (is_Some (ps !! i)) as [p Hp];
        [apply mapM_Some_lookup in Hx as [Hlen _]; apply lookup_lt_is_Some; rewrite <-Hlen; by eapply lookup_lt_Some|]);
      rewrite Hp; exists (p :: idx0), (x :: full); split_and!; try done; (constructor; [|done]);
      rewrite <-(mapM_lookup _ _ _ _ _ Hx Hp); done.
Qed.

Definition r_len (r : ritem) : option nat := match r with RInt _ => None | RSlice ps | RList ps => Some (length ps) end.
Lemma sels_shape label rs ss : sels label rs ss -> length <$> sel_labels ss = omap r_len rs.
Proof.
  intros H. induction H as [|l r s label rs ss Hs H IH]; [done|].
  destruct r as [p|ps|ps]; simpl in Hs; apply bind_Some in Hs as (x & Hx & [= <-]); simpl; [done|..];
    (f_equal; [by apply mapM_Some_lookup in Hx as [? _]|exact IH]).
Qed.

(** Number of slices before the first list. *)
Fixpoint list_place (rs : list ritem) : nat :=
  match rs with
  | [] => 0
  | RInt _ :: rs' => list_place rs'
  | RSlice _ :: rs' => S (list_place rs')
  | RList _ :: _ => 0
  end.
Lemma weave_no_list rs k sl : list_lens rs = [] -> weave rs k sl = weave_in rs sl.
Proof.
  revert sl. induction rs as [|r rs IH]; intros sl H; [done|]. destruct r as [p|ps|ps]; simpl in *; [by rewrite IH| |done].
  destruct sl as [|i sl]; [done|]. by rewrite IH.
Qed.
Lemma no_list_shape rs : list_lens rs = [] -> slice_lens rs = omap r_len rs.
Proof. intros H. induction rs as [|[p|ps|ps] rs IH]; simpl in *; [done|auto|f_equal; auto|done]. Qed.
Lemma one_list_shape rs n : list_lens rs = [n] -> omap r_len rs = insert_at (list_place rs) n (slice_lens rs).
Proof.
  induction rs as [|[p|ps|ps] rs IH]; simpl; intros H; [done|auto| |].
  - unfold insert_at in *. simpl. f_equal. by apply IH.
  - injection H as <- H. unfold insert_at. simpl. f_equal. symmetry. by apply no_list_shape.
Qed.
Lemma list_place_le rs n : list_lens rs = [n] -> list_place rs <= length (slice_lens rs).
Proof. induction rs as [|[p|ps|ps] rs IH]; simpl; intros H; [lia|auto|specialize (IH H); lia|lia]. Qed.
Lemma weave_one_list rs n k sl :
  list_lens rs = [n] -> k < n -> length sl = length (slice_lens rs) ->
  weave rs k sl = weave_in rs (insert_at (list_place rs) k sl).
Proof.
  revert sl. induction rs as [|[p|ps|ps] rs IH]; intros sl H Hk Hlen; simpl in *; [done| | |].
  - by rewrite IH.
  - destruct sl as [|i sl]; [done|]. simpl in Hlen. unfold insert_at in *. simpl. by rewrite IH by (done || lia).
  - injection H as <- H. unfold insert_at. simpl. rewrite weave_no_list by done.
    case_decide as E; [|done]. assert (k = 0) as -> by lia. done.
Qed.

Lemma broadcast_one n : broadcast_len [n] = Ok n.
Proof. by destruct n as [|[|n]]. Qed.

(** Where numpy puts the list. *)
Lemma slices_only_lists rs : slices_only rs = true -> list_lens rs = [].
Proof. induction rs as [|[p|ps|ps] rs IH]; simpl; done || auto. Qed.
Lemma adv_then_place rs n : adv_then_slices rs = true -> list_lens rs = [n] -> list_place rs = 0.
Proof.
  induction rs as [|[p|ps|ps] rs IH]; simpl; intros Ha H; try done; auto.
  by rewrite slices_only_lists in H.
Qed.
Lemma adjacent_place rs n : adjacent rs = true -> list_lens rs = [n] -> list_place rs = slices_before rs.
Proof.
  induction rs as [|[p|ps|ps] rs IH]; simpl; intros Ha H; try done; auto.
  by eapply adv_then_place.
Qed.

(** The index with the missing entries. *)
Definition pad (n : nat) (items : list item) : list item := items ++ replicate (n - length items) (ISlice slice_all).
Definition resolved (sh : list nat) (items : list item) (rs : list ritem) : Prop :=
  Forall3 (fun n it r => resolve n it = Ok r) sh (pad (length sh) items) rs.
Definition same_kind (it : item) (r : ritem) : Prop :=
  match r with RInt _ => is_int it | RSlice _ => is_slice it | RList _ => is_list it end.

Lemma resolve_kind n it r : resolve n it = Ok r -> same_kind it r.
Proof.
  destruct it; simpl; intros H; try (apply bind_ok in H as (? & _ & [= <-]); done);
    case_decide; [|done| |done]; by injection H as <-.
Qed.
Lemma resolved_kind sh items rs : resolved sh items rs -> Forall2 same_kind (pad (length sh) items) rs.
Proof.
  unfold resolved. intros H. revert H. generalize (pad (length sh) items). intros its H. clear items.
  induction H; constructor; [by eapply resolve_kind|done].
Qed.

Lemma pad_length n items : length items <= n -> length (pad n items) = n.
Proof. intros. unfold pad. rewrite app_length, replicate_length. lia. Qed.
Lemma pad_nonslice n items i it : pad n items !! i = Some it -> ~ is_slice it -> items !! i = Some it.
Proof.
  unfold pad. intros H Hn. destruct (decide (i < length items)) as [Hi|Hi]; [by rewrite lookup_app_l in H|].
  rewrite lookup_app_r in H by lia. apply lookup_replicate in H as [-> _]. by destruct Hn.
Qed.
Lemma pad_joined n items : joined items -> joined (pad n items).
Proof.
  intros H i j k a b c Hijk Ha Hb Hc Hna Hnc. eapply (H i j k a b c); try done; [by eapply pad_nonslice| |by eapply pad_nonslice].
  apply pad_nonslice in Hc; [|done]. unfold pad in Hb. rewrite lookup_app_l in Hb; [done|]. apply lookup_lt_Some in Hc. lia.
Qed.
Lemma pad_list_first n items : list_first items -> list_first (pad n items).
Proof.
  intros H i j a b Hij Ha Hb Hl. assert (Hb' : items !! j = Some b).
  { eapply pad_nonslice; [done|]. destruct b; simpl in *; tauto. }
  eapply (H i j); try done. unfold pad in Ha. rewrite lookup_app_l in Ha; [done|]. apply lookup_lt_Some in Hb'. lia.
Qed.

Lemma joined_adv items rs :
  Forall2 same_kind items rs ->
  (forall j k b c, j < k -> items !! j = Some b -> items !! k = Some c -> ~ is_slice c -> ~ is_slice b) ->
  adv_then_slices rs = true.
Proof.
  intros H. induction H as [|it r items rs Hk H IH]; intros Hj; [done|]. simpl.
  destruct r as [p|ps|ps]; simpl; simpl in Hk.
  - apply IH. intros j k b c Hjk. apply (Hj (S j) (S k)). lia.
  - clear IH. assert (Hall : Forall is_slice items).
    { apply Forall_forall. intros c Hc. apply elem_of_list_lookup in Hc as [k Hc].
      assert (~ ~ is_slice c) as Hnn by (intros Hn; exact (Hj 0 (S k) it c ltac:(lia) eq_refl Hc Hn Hk)).
      destruct c; simpl in *; tauto. }
    clear Hj. induction H as [|it' r' items rs Hk' H IH]; [done|]. apply Forall_cons in Hall as [Hs Hall].
    simpl. destruct r'; simpl in *; [by destruct it'|auto|by destruct it'].
  - apply IH. intros j k b c Hjk. apply (Hj (S j) (S k)). lia.
Qed.
Lemma joined_adjacent items rs : Forall2 same_kind items rs -> joined items -> adjacent rs = true.
Proof.
  intros H. induction H as [|it r items rs Hk H IH]; intros Hj; [done|]. simpl.
  assert (Htail : joined items) by (intros i j k a b c Hijk; apply (Hj (S i) (S j) (S k)); lia).
  destruct r as [p|ps|ps]; simpl; simpl in Hk; [|by apply IH|];
    (eapply joined_adv; [done|]; intros j k b c Hjk Hb Hc Hnc;
     apply (Hj 0 (S j) (S k) it b c); [lia|done..|destruct it; simpl in *; tauto|done]).
Qed.
Lemma list_first_place items rs : Forall2 same_kind items rs -> list_first items -> list_lens rs <> [] -> list_place rs = 0.
Proof.
  intros H. induction H as [|it r items rs Hk H IH]; intros Hj Hl; [done|].
  assert (Htail : list_first items) by (intros i j a b Hij; apply (Hj (S i) (S j)); lia).
  destruct r as [p|ps|ps]; simpl in *; [by apply IH| |done].
  exfalso. clear IH Htail. revert Hj. assert (exists j b, items !! j = Some b /\ is_list b) as (j & b & Hb & Hlb).
  { clear Hk. induction H as [|it' r' items rs Hk' H IH]; [done|]. destruct r'; simpl in *.
    - destruct (IH Hl) as (j & b & ? & ?). by exists (S j), b.
    - destruct (IH Hl) as (j & b & ? & ?). by exists (S j), b.
    - by exists 0, it'. }
  intros Hj. exact (Hj 0 (S j) it b ltac:(lia) eq_refl Hb Hlb Hk).
Qed.

(** numpy places the list where the labels put it. *)
Definition placed (rs : list ritem) : Prop := list_place rs = if adjacent rs then slices_before rs else 0.
Lemma layout_placed sh items rs n :
  resolved sh items rs -> joined items \/ list_first items -> list_lens rs = [n] -> placed rs.
Proof.
  intros Hr Hj Hn. apply resolved_kind in Hr. unfold placed. destruct (adjacent rs) eqn:Ha; [by eapply adjacent_place|].
  destruct Hj as [Hj|Hj].
  - apply (pad_joined (length sh)) in Hj. by rewrite (joined_adjacent _ _ Hr Hj) in Ha.
  - apply (pad_list_first (length sh)) in Hj. apply (list_first_place _ _ Hr Hj). by rewrite Hn.
Qed.

Lemma mapR_zip_Forall3 {A B C} (f : A -> B -> res C) (l : list A) (k : list B) r :
  length l = length k ->
  mapR (fun q : A * B => f q.1 q.2) (zip l k) = Ok r <-> Forall3 (fun a b c => f a b = Ok c) l k r.
Proof.
  rewrite mapR_ok. revert k r. induction l as [|a l IH]; intros [|b k] r Hl; try done; simpl.
  - split; [inversion 1; constructor|inversion 1; constructor].
  - injection Hl as Hl. split.
    + inversion 1; subst. constructor; [done|]. by apply IH.
    + inversion 1; subst. constructor; [done|]. by apply IH.
Qed.

Lemma np_select_inv sh items q :
  np_select sh items = Ok q -> length items <= length sh /\ exists rs, resolved sh items rs /\
  ((list_lens rs = [] /\ q = (slice_lens rs, weave rs 0)) \/
   (list_lens rs <> [] /\ exists n, broadcast_len (list_lens rs) = Ok n /\
    let p := if adjacent rs then slices_before rs else 0 in
    q = (insert_at p n (slice_lens rs), fun idx => k ← idx !! p; weave rs k (remove_at p idx)))).
Proof.
  unfold np_select. case_decide as Hlen; [done|]. intros H. apply bind_ok in H as (rs & Hrs & H). split; [lia|].
  exists rs. split.
  { apply mapR_zip_Forall3 in Hrs; [exact Hrs|]. symmetry. apply pad_length. lia. }
  destruct (list_lens rs) as [|n0 lens] eqn:El.
  - left. by injection H as <-.
  - right. split; [done|]. apply bind_ok in H as (n & Hn & [= <-]). exists n. done.
Qed.
Lemma np_select_resolved sh items rs :
  length items <= length sh -> resolved sh items rs ->
  np_select sh items =
    match list_lens rs with
    | [] => Ok (slice_lens rs, weave rs 0)
    | lens =>
        n ← broadcast_len lens;
        let p := if adjacent rs then slices_before rs else 0 in
        Ok (insert_at p n (slice_lens rs), fun idx => k ← idx !! p; weave rs k (remove_at p idx))
    end.
Proof.
  intros Hlen Hr. unfold np_select. rewrite decide_False by lia.
  change (items ++ replicate (length sh - length items) (ISlice slice_all)) with (pad (length sh) items).
  apply mapR_zip_Forall3 in Hr; [|by rewrite pad_length]. rewrite Hr. done.
Qed.

Lemma weave_in_length rs idx idx0 : weave_in rs idx = Some idx0 -> length idx = length (omap r_len rs).
Proof.
  revert idx idx0. induction rs as [|[p|ps|ps] rs IH]; intros idx idx0 H; simpl in *.
  - by destruct idx.
  - apply bind_Some in H as (r & Hr & _). eauto.
  - destruct idx as [|i idx]; [done|]. apply bind_Some in H as (? & _ & H). apply bind_Some in H as (r & Hr & _). simpl. f_equal. eauto.
  - destruct idx as [|i idx]; [done|]. apply bind_Some in H as (? & _ & H). apply bind_Some in H as (r & Hr & _). simpl. f_equal. eauto.
Qed.

Lemma select_core (L : list (list lab)) items rs ss :
  length items <= length L -> resolved (length <$> L) items rs -> sels L rs ss ->
  length (list_lens rs) <= 1 -> (list_lens rs <> [] -> placed rs) ->
  exists m, np_select (length <$> L) items = Ok (length <$> sel_labels ss, m) /\
    forall idx ls, labels_at (sel_labels ss) idx ls ->
      exists idx0 full, m idx = Some idx0 /\ sel_full ss ls = Some full /\ labels_at L idx0 full.
Proof.
  intros Hlen Hr Hs H1 Hp. rewrite (np_select_resolved (length <$> L) items rs); [|by rewrite fmap_length|exact Hr].
  pose proof (sels_shape _ _ _ Hs) as Hsh. destruct (list_lens rs) as [|n [|]] eqn:El; [| |simpl in H1; lia].
  - exists (weave rs 0). split; [by rewrite Hsh, no_list_shape|]. intros idx ls Hl.
    rewrite weave_no_list by done. by apply weave_in_labels.
  - rewrite broadcast_one. simpl. specialize (Hp ltac:(done)). unfold placed in Hp. rewrite <-Hp.
    eexists. split; [by rewrite Hsh, (one_list_shape rs n) by done|]. intros idx ls Hl. simpl.
    assert (Hri : in_range (omap r_len rs) idx). { rewrite <-Hsh. by eapply labels_at_in_range. }
    rewrite (one_list_shape rs n El) in Hri. pose proof (in_range_length _ _ Hri) as Hil.
    pose proof (list_place_le rs n El) as Hple.
    assert (Hin : insert_at (list_place rs) n (slice_lens rs) !! list_place rs = Some n).
    { unfold insert_at. rewrite lookup_app_r by (rewrite take_length; lia). rewrite take_length.
      by replace (list_place rs - list_place rs `min` length (slice_lens rs)) with 0 by lia. }
    assert (is_Some (idx !! list_place rs)) as [k Hk].
    { apply lookup_lt_is_Some. rewrite Hil. by eapply lookup_lt_Some. }
    rewrite Hk. simpl. pose proof (in_range_lookup _ _ _ _ _ Hri Hin Hk) as Hkn.
    rewrite (weave_one_list rs n); [|done|done|].
    + rewrite insert_remove_at by done. by apply weave_in_labels.
    + apply lookup_lt_Some in Hk. change (remove_at (list_place rs) idx) with (delete (list_place rs) idx).
      rewrite length_delete by (by apply lookup_lt_is_Some). rewrite Hil.
      unfold insert_at. rewrite app_length, take_length. simpl. rewrite drop_length. lia.
Qed.

Lemma sel_full_nil_labels ss full : sel_labels ss = [] -> sel_full ss [] = Some full -> Forall (fun s => exists x, s = At x) ss.
Proof.
  revert full. induction ss as [|[x|l] ss IH]; intros full H Hf; simpl in *; [constructor| |done].
  apply bind_Some in Hf as (f & Hf & _). constructor; eauto.
Qed.

Lemma select_get y items rs ss :
  valid y -> length items <= lndim y -> resolved (lshape y) items rs -> sels (llabel y) rs ss ->
  length (list_lens rs) <= 1 -> (list_lens rs <> [] -> placed rs) ->
  exists b, np_getitem (larr y) items = Ok b /\ shape b = length <$> sel_labels ss /\
    (sel_labels ss <> [] -> Forall NoDup (sel_labels ss) -> restricted y ss (Larry (Nda (ldtype y) b) (sel_labels ss))) /\
    (sel_labels ss = [] -> exists v full, sel_full ss [] = Some full /\ cell y full = Some v /\ aget b [] = Some v).
Proof.
  intros Hv Hlen Hr Hs H1 Hp. rewrite <-(valid_shape y Hv) in Hr.
  destruct (select_core (llabel y) items rs ss ltac:(by rewrite valid_ndim) Hr Hs H1 Hp) as (m & Hm & Hmap).
  unfold np_getitem. change (shape (larr y)) with (lshape y). rewrite <-(valid_shape y Hv), Hm. simpl.
  assert (Hmap' : forall idx' ls', labels_at (sel_labels ss) idx' ls' ->
    exists idx, m idx' = Some idx /\ labels_at (llabel y) idx (default [] (sel_full ss ls'))).
  { intros idx ls Hl. destruct (Hmap _ _ Hl) as (idx0 & full & Hm0 & Hf & Hla). exists idx0. by rewrite Hf. }
  destruct (regrid_is_Some y (sel_labels ss) m (fun ls => default [] (sel_full ss ls)) Hv Hmap') as [b Hb].
  rewrite Hb. exists b. split; [done|].
  pose proof Hb as (Hsb & Hwb & Hgb)%gather_Some. split; [done|]. split.
  - intros Hne HN. destruct (regrid y (sel_labels ss) m (fun ls => default [] (sel_full ss ls)) b Hv Hne HN Hb Hmap') as [Hvz Hc].
    split; [exact Hvz|]. split; [done|]. split; [done|]. intros ls Hls. simpl in Hls.
    apply in_grid_labels_at in Hls as Hls2. destruct Hls2 as [idx Hl].
    destruct (Hmap _ _ Hl) as (idx0 & full & Hm0 & Hf & Hla). exists full. split; [done|].
    rewrite Hc by done. by rewrite Hf.
  - intros He. assert (Hl0 : labels_at (sel_labels ss) [] []) by (rewrite He; constructor).
    destruct (Hmap _ _ Hl0) as (idx0 & full & Hm0 & Hf & Hla).
    destruct (valid_cell_at y idx0 full Hv Hla) as (v & Hg & Hc). exists v, full. split_and!; try done.
    rewrite Hgb; [by rewrite Hm0|]. rewrite He. by constructor.
Qed.

Lemma sels_nodup L items rs ss :
  Forall NoDup L -> resolved (length <$> L) items rs -> sels L rs ss -> list_lens rs = [] -> Forall NoDup (sel_labels ss).
Proof.
  intros HN Hr. unfold resolved in Hr. revert Hr. rewrite fmap_length. generalize (pad (length L) items). clear items. intros its Hr Hs Hl.
  revert its Hr. induction Hs as [|l r s L rs ss Hs HH IH]; intros its Hr; [constructor|].
  apply Forall_cons in HN as [Hn HN]. simpl in Hr. inversion Hr as [|? it ? ? its' ? Hr1 Hr2]; subst.
  destruct r as [p|ps|ps]; simpl in *; [| |done].
  - apply bind_Some in Hs as (? & _ & [= <-]). simpl. eauto.
  - apply bind_Some in Hs as (l' & Hl' & [= <-]). simpl. constructor; [|eauto].
    apply (mapM_index_inj l ps l'); [done|done|]. pose proof (resolve_kind _ _ _ Hr1) as Hk. destruct it; simpl in Hk; try done.
    simpl in Hr1. apply bind_ok in Hr1 as (ps' & Hps & [= <-]). by apply slice_positions_ok in Hps as [_ ?].
Qed.
