(** Proofs about tables of stock quotes. *)
From Verif Require Export Yahoo AlignMore IndexGet LarryMove.

(** * Reading the file *)

Lemma splits_nonempty d t fs : splits d t fs -> fs <> [].
Proof. by destruct 1. Qed.
Lemma split_at_bare d t : d ∉ t -> split_at d t = [t].
Proof.
  induction t as [|c t IH]; [done|]. intros [Hc Ht]%not_elem_of_cons. cbn. rewrite decide_False by congruence. by rewrite IH.
Qed.
Lemma split_at_cons d t rest : d ∉ t -> split_at d (t ++ d :: rest) = t :: split_at d rest.
Proof.
  induction t as [|c t IH]; cbn; [by rewrite decide_True|]. intros [Hc Ht]%not_elem_of_cons.
  rewrite decide_False by congruence. by rewrite IH.
Qed.
Lemma split_at_splits d t fs : splits d t fs -> split_at d t = fs.
Proof. induction 1; [by apply split_at_bare|]. rewrite split_at_cons by done. by f_equal. Qed.

Lemma readlines_lines t ls : lines_of t ls -> readlines t = ls.
Proof.
  assert (Hlast : forall s, s <> [] -> nl ∉ s -> readlines s = [s]).
  { induction s as [|c s IH]; [done|]. intros _ [Hc Hs]%not_elem_of_cons. cbn [readlines]. rewrite decide_False by congruence.
    destruct s; [done|]. by rewrite IH. }
  assert (Hmore : forall s t, nl ∉ s -> readlines (s ++ nl :: t) = (s ++ [nl]) :: readlines t).
  { induction s as [|c s IH]; intros r; cbn; [done|]. intros [Hc Hs]%not_elem_of_cons. rewrite decide_False by congruence. by rewrite IH. }
  induction 1; [done|by apply Hlast|]. rewrite Hmore by done. by f_equal.
Qed.

Lemma splits_split_at d t : splits d t (split_at d t).
Proof.
  induction t as [|c t IH]; cbn; [by apply splits_one, not_elem_of_nil|]. case_decide as Hc.
  - subst c. apply (splits_cons d [] t); [by apply not_elem_of_nil|done].
  - inversion IH as [t' Hd Ht E|t' rest ts Hd Hr Ht E]; subst.
    + apply splits_one. apply not_elem_of_cons. done.
    + apply (splits_cons d (c :: t') rest); [apply not_elem_of_cons; done|done].
Qed.
Lemma lines_readlines t : lines_of t (readlines t).
Proof.
  induction t as [|c t IH]; cbn; [constructor|]. case_decide as Hc.
  - subst c. apply (lines_more [] t); [by apply not_elem_of_nil|done].
  - inversion IH as [Ht E|t' Hne Hd Ht E|t' rest ts Hd Hr Ht E]; subst.
    + apply lines_last; [done|]. apply not_elem_of_cons. split; [done|by apply not_elem_of_nil].
    + apply lines_last; [done|]. apply not_elem_of_cons. done.
    + apply (lines_more (c :: t') rest); [apply not_elem_of_cons; done|done].
Qed.

Section parse.
  Context (float : string -> option num) (int : string -> option Z) (date : Z -> Z -> Z -> option Z).
  Set Default Proof Using "All".
  Lemma parse_day s p : day_line float int date s p -> parse_line float int date s = Ok [p].
  Proof.
    intros (sd & so & sh & sl & sc & sv & sa & Hs & (ty & tm & td & y & m & d & Hd & Hy & Hm & Hdd & Hdate) & H1 & H2 & H3 & H4 & H5 & H6).
    unfold parse_line. rewrite (split_at_splits _ _ _ Hs), (split_at_splits _ _ _ Hd). unfold py_int, py_float. cbn [mapR].
    rewrite Hy, Hm, Hdd. cbn. rewrite Hdate. cbn. rewrite H1, H2, H3, H4, H5, H6. cbn. by destruct p as [? []].
  Qed.
  Lemma parse_skip s fs : splits ","%char s fs -> length fs <> 7 -> parse_line float int date s = Ok [].
  Proof.
    intros Hs Hn. unfold parse_line. rewrite (split_at_splits _ _ _ Hs).
    do 7 (destruct fs as [|? fs]; [done|]). destruct fs; [done|done].
  Qed.
  Lemma parse_history t h : history_file float int date t h -> parse_yahoo float int date t = Ok h.
  Proof.
    intros (title & ls & Hl & Hd). unfold parse_yahoo. rewrite (readlines_lines _ _ Hl). change (drop 1 (title :: ls)) with ls.
    assert (exists r, mapR (parse_line float int date) ls = Ok r /\ concat r = h) as (r & -> & <-); [|done]. clear Hl.
    induction Hd as [|s p ls h Hs Hls IH|s fs ls h Hs Hn Hls IH]; [by exists []| |]; destruct IH as (r & Hr & <-); cbn [mapR].
    - rewrite (parse_day _ _ Hs), Hr. by eexists.
    - rewrite (parse_skip _ _ Hs Hn), Hr. by eexists.
  Qed.
  Lemma parse_line_inv s r : parse_line float int date s = Ok r ->
    (exists p, r = [p] /\ day_line float int date s p) \/ r = [] /\ exists fs, splits ","%char s fs /\ length fs <> 7.
  Proof.
    unfold parse_line. pose proof (splits_split_at ","%char s) as Hs. destruct (split_at ","%char s) as [|v0 fs]; [intros [= <-]; right; eauto|].
    do 6 (destruct fs as [|? fs]; [intros [= <-]; right; by split; [|eexists]|]). destruct fs as [|? fs]; [|intros [= <-]; right; by split; [|eexists]].
    intros (parts & Hp & H)%bind_ok. destruct parts as [|y [|m [|d [|]]]]; try done. left.
    apply bind_ok in H as (dd & Hd & H). unfold py_float, py_int in *.
    repeat (let x := fresh "x" in let Hx := fresh "Hx" in apply bind_ok in H as (x & Hx & H); apply of_opt_ok in Hx). injection H as <-.
    eexists. split; [done|]. apply of_opt_ok in Hd.
    pose proof (splits_split_at "-"%char v0) as Hsd. destruct (split_at "-"%char v0) as [|ty [|tm [|td [|]]]];
      apply mapR_ok in Hp; repeat (apply Forall2_cons_inv_l in Hp as (? & ? & ? & Hp & [= ? ?]); subst); try (by inversion Hp).
    inversion Hp; subst. unfold py_int in *. repeat match goal with H : of_opt _ _ = Ok _ |- _ => apply of_opt_ok in H end.
    do 7 eexists. split; [exact Hs|]. split; [|split_and!; done]. do 6 eexists. by split_and!.
  Qed.
  Lemma parse_history_inv t h title ls : readlines t = title :: ls -> parse_yahoo float int date t = Ok h -> history_file float int date t h.
  Proof.
    intros Hr Hp. exists title, ls. split; [rewrite <-Hr; apply lines_readlines|]. unfold parse_yahoo in Hp. rewrite Hr in Hp.
    change (drop 1 (title :: ls)) with ls in Hp. apply bind_ok in Hp as (r & Hm & [= <-]). apply mapR_ok in Hm. clear Hr.
    induction Hm as [|s x ls r Hx Hm IH]; [constructor|]. cbn [concat].
    destruct (parse_line_inv _ _ Hx) as [(p & -> & Hd)|(-> & fs & Hs & Hn)]; cbn [app]; [by constructor|by eapply days_skip].
  Qed.
End parse.

(** * The larry of one ticker *)

Definition names6 : list string := item_names false.
Lemma yahoo_items_names : yahoo_items = LStr <$> names6.
Proof. done. Qed.

(** Tables whose dates need not be sorted. *)
Definition pre_table (hist : string -> history) (tickers : list string) (z : larry) : Prop :=
  valid z /\ ldtype z = DFloat /\ exists ts ds,
    llabel z = [LStr <$> ts; LStr <$> names6; LDate <$> ds] /\
    StronglySorted lab_lt (LStr <$> ts) /\ ts ≡ₚ tickers /\
    (forall d, d ∈ ds <-> exists t, t ∈ tickers /\ d ∈ (hist t).*1) /\
    (forall t d q i n, t ∈ tickers -> (d, q) ∈ hist t -> (i, n) ∈ raw_items q ->
       cell z [LStr t; LStr i; LDate d] = Some (VFloat n)) /\
    (forall t d i, t ∈ tickers -> d ∈ ds -> d ∉ (hist t).*1 -> i ∈ names6 ->
       cell z [LStr t; LStr i; LDate d] = Some (VFloat NaN)).

Lemma raw_names q : (raw_items q).*1 = names6.
Proof. done. Qed.
Lemma rows_lookup (qs : list day) k j q : qs !! k = Some q -> j < 6 -> (qs ≫= day_row) !! (k * 6 + j) = day_row q !! j.
Proof.
  revert k. induction qs as [|q' qs IH]; [done|]. intros [|k] Hk Hj; rewrite bind_cons.
  - injection Hk as ->. rewrite lookup_app_l by (cbn; lia). done.
  - rewrite lookup_app_r by (cbn; lia). cbn in Hk. specialize (IH k Hk Hj). rewrite <-IH. f_equal. cbn [length day_row]. lia.
Qed.
Lemma rows_length (qs : list day) : length (qs ≫= day_row) = length qs * 6.
Proof. induction qs as [|q qs IH]; [done|]. rewrite bind_cons, app_length, IH. cbn [length day_row]. lia. Qed.
Lemma names6_nodup : NoDup names6.
Proof. refine (bool_decide_unpack _ _). by vm_compute. Qed.
Lemma LStr_nodup l : NoDup l -> NoDup (LStr <$> l).
Proof. intros. by apply NoDup_fmap_2; [intros ?? [=]|]. Qed.
Lemma LDate_nodup l : NoDup l -> NoDup (LDate <$> l).
Proof. intros. by apply NoDup_fmap_2; [intros ?? [=]|]. Qed.

Lemma quote_larry_ok h :
  NoDup h.*1 -> exists y, quote_larry h = Ok y /\ valid y /\ ldtype y = DFloat /\ llabel y = [LStr <$> names6; LDate <$> h.*1] /\
  forall d q i n, (d, q) ∈ h -> (i, n) ∈ raw_items q -> cell y [LStr i; LDate d] = Some (VFloat n).
Proof.
  intros Hn. set (a := Arr [length h; 6] (h.*2 ≫= day_row)).
  set (y0 := Larry (Nda DFloat a) [LDate <$> h.*1; LStr <$> names6]).
  assert (Hv0 : valid y0).
  { split_and!; [|done| |].
    - split.
      + change (length (h.*2 ≫= day_row) = length h * (6 * 1)). rewrite rows_length, fmap_length. lia.
      + change (Forall (fun v => has_dtype DFloat v = true) (h.*2 ≫= day_row)). apply Forall_forall. intros v (q & Hv & _)%elem_of_list_bind.
        unfold day_row in Hv. repeat (apply elem_of_cons in Hv as [-> |Hv]; [done|]). by apply elem_of_nil in Hv.
    - unfold lshape, nd_shape. cbn. by rewrite !fmap_length.
    - apply Forall_cons. split; [by apply LDate_nodup|]. apply Forall_singleton. apply LStr_nodup, names6_nodup. }
  destruct (larry_T_spec y0 Hv0) as (y & HT & Hv & Hd & Hl & Hc).
  exists y. unfold larry_T in HT. change (larr y0) with a in HT. unfold quote_larry. fold a.
  destruct (transpose a) as [b|] eqn:Hb; [|done]. cbn in HT. injection HT as <-. cbn [of_opt mbind res_bind].
  split_and!; try done.
  - change (ldtype y0) with DFloat in *. apply make_some_valid; [by destruct Hv|]. done.
  - intros d q i n Hq Hi. rewrite Hc. cbn [reverse rev_append].
    apply elem_of_list_lookup in Hq as [k Hk]. apply elem_of_list_lookup in Hi as [j Hj].
    assert (Hj6 : j < 6) by (apply lookup_lt_Some in Hj; done).
    rewrite (cell_at y0 [k; j]).
    + change (larr y0) with a. unfold aget. rewrite decide_True.
      2:{ apply in_range_cons'. split; [by eapply lookup_lt_Some|]. apply in_range_cons'. split; [done|]. by apply in_range_nil. }
      change (data a) with (h.*2 ≫= day_row). change (shape a) with [length h; 6]. replace (ravel [length h; 6] [k; j]) with (k * 6 + j) by (cbn; lia).
      rewrite (rows_lookup h.*2 k j q) by (try done; by rewrite list_lookup_fmap, Hk).
      do 6 (destruct j as [|j]; [by injection Hj as <- <-|]). lia.
    + by apply valid_nodup.
    + repeat constructor.
      * by rewrite !list_lookup_fmap, Hk.
      * rewrite <-(raw_names q), !list_lookup_fmap, Hj. done.
Qed.

Lemma fst_elem (h : history) d q : (d, q) ∈ h -> d ∈ h.*1.
Proof. intros H. apply elem_of_list_fmap. by exists (d, q). Qed.
Lemma fst_elem_inv (h : history) d : d ∈ h.*1 -> exists q, (d, q) ∈ h.
Proof. intros ([d' q] & -> & H)%elem_of_list_fmap. by exists q. Qed.
Lemma raw_elem q i n : (i, n) ∈ raw_items q -> i ∈ names6.
Proof. intros H. rewrite <-(raw_names q). apply elem_of_list_fmap. by exists (i, n). Qed.
Lemma raw_elem_inv q i : i ∈ names6 -> exists n, (i, n) ∈ raw_items q.
Proof. rewrite <-(raw_names q). intros ([i' n] & -> & H)%elem_of_list_fmap. by exists n. Qed.

Lemma pre_single hist t :
  NoDup (hist t).*1 -> exists q y, quote_larry (hist t) = Ok q /\ insertaxis q (Some 0%Z) (LStr t) = Ok y /\ pre_table hist [t] y.
Proof.
  intros Hn. destruct (quote_larry_ok _ Hn) as (q & Hq & Hv & Hd & Hl & Hc). exists q.
  destruct (insertaxis_spec q 0%Z (LStr t) Hv) as (y & Hy & Hvy & Hdy & Hly & Hcy); [lia|].
  assert (Hax : new_axis (lndim q) 0 = 0) by (unfold new_axis; case_decide; lia). rewrite Hax in Hly, Hcy.
  exists y. split_and!; [done..|]. split; [done|]. split; [congruence|]. exists [t], (hist t).*1. split_and!.
  - rewrite Hly, Hl. done.
  - constructor; constructor.
  - done.
  - intros d. split; [intros H; exists t; split; [by left|done]|]. by intros (t' & ->%elem_of_list_singleton & H).
  - intros t' d q' i n ->%elem_of_list_singleton Hd' Hi.
    change [LStr t; LStr i; LDate d] with (insert_at 0 (LStr t) [LStr i; LDate d]). rewrite Hcy; [by eapply Hc|].
    rewrite Hl. constructor; [|constructor; [|constructor]].
    + apply elem_of_list_fmap_1. by eapply raw_elem.
    + apply elem_of_list_fmap_1. by eapply fst_elem.
  - intros t' d i ->%elem_of_list_singleton H1 H2. done.
Qed.

(** * Merging *)

Lemma pre_cell hist ts z ls v :
  pre_table hist ts z -> cell z ls = Some v ->
  exists t i d n, ls = [LStr t; LStr i; LDate d] /\ v = VFloat n /\ t ∈ ts /\ i ∈ names6 /\
    ((exists q, (d, q) ∈ hist t /\ (i, n) ∈ raw_items q) \/ d ∉ (hist t).*1 /\ n = NaN).
Proof.
  intros (Hv & Hd & L0 & L2 & Hl & Hs & Hp & HD & Hc & Hm) Hcell.
  assert (Hg : in_grid (llabel z) ls) by (apply valid_cell_grid; eauto). rewrite Hl in Hg.
  inversion Hg as [|x ? ls1 ? Hx Hg1]; subst. inversion Hg1 as [|x1 ? ls2 ? Hx1 Hg2]; subst.
  inversion Hg2 as [|x2 ? ls3 ? Hx2 Hg3]; subst. inversion Hg3; subst.
  apply elem_of_list_fmap in Hx as (t & -> & Ht). change (x1 ∈ LStr <$> names6) in Hx1. apply elem_of_list_fmap in Hx1 as (i & -> & Hi). apply elem_of_list_fmap in Hx2 as (d & -> & Hdd).
  rewrite Hp in Ht. exists t, i, d. destruct (decide (d ∈ (hist t).*1)) as [Hin|Hin].
  - apply fst_elem_inv in Hin as [q Hq]. destruct (raw_elem_inv q i Hi) as [n Hin]. exists n.
    pose proof (Hc t d q i n Ht Hq Hin) as E. rewrite E in Hcell. injection Hcell as <-. split_and!; try done. left. by exists q.
  - pose proof (Hm t d i Ht Hdd Hin Hi) as E. rewrite E in Hcell. injection Hcell as <-. exists NaN. split_and!; try done. by right.
Qed.

Lemma elems_image {A} (f : A -> lab) (u : list lab) : (forall x, x ∈ u -> exists a, x = f a) -> exists l, u = f <$> l.
Proof.
  induction u as [|x u IH]; intros H; [by exists []|]. destruct (H x) as [a ->]; [left|].
  destruct IH as [l ->]; [intros; apply H; by right|]. by exists (a :: l).
Qed.
Lemma LStr_elem s (l : list string) : LStr s ∈ LStr <$> l <-> s ∈ l.
Proof. rewrite elem_of_list_fmap. split; [by intros (? & [= ->] & ?)|eauto]. Qed.
Lemma LDate_elem s (l : list Z) : LDate s ∈ LDate <$> l <-> s ∈ l.
Proof. rewrite elem_of_list_fmap. split; [by intros (? & [= ->] & ?)|eauto]. Qed.

Definition no_inf_hist (h : history) : Prop := forall d q i n, (d, q) ∈ h -> (i, n) ∈ raw_items q -> is_inf n = false.
Lemma pre_no_inf hist ts z : Forall (fun t => no_inf_hist (hist t)) ts -> pre_table hist ts z -> no_inf z.
Proof.
  intros Hi Hp ls n Hc. destruct (pre_cell _ _ _ _ _ Hp Hc) as (t & i & d & n' & -> & [= <-] & Ht & _ & [(q & Hq & Hin)|(_ & ->)]); [|done].
  rewrite Forall_forall in Hi. by eapply Hi.
Qed.
Lemma pre_data hist ts z ls : pre_table hist ts z ->
  match data_at z ls with Some v => cast_to DFloat v = v | None => True end.
Proof.
  intros Hp. unfold data_at. destruct (cell z ls) as [v|] eqn:E; [|done]. cbn. case_decide; [done|].
  destruct (pre_cell _ _ _ _ _ Hp E) as (t & i & d & n & -> & -> & _). done.
Qed.
Lemma data_at_float z ls n : ldtype z = DFloat -> cell z ls = Some (VFloat n) ->
  data_at z ls = if decide (n = NaN) then None else Some (VFloat n).
Proof.
  intros Hd Hc. unfold data_at. rewrite Hc, Hd. cbn. destruct (decide (n = NaN)) as [->|Hn]; [by rewrite decide_True|].
  rewrite decide_False by congruence. done.
Qed.

Lemma pre_axes hist1 ts1 y1 hist2 ts2 y2 : pre_table hist1 ts1 y1 -> pre_table hist2 ts2 y2 ->
  lndim y1 = lndim y2 /\
  (forall i l1 l2, llabel y1 !! i = Some l1 -> llabel y2 !! i = Some l2 -> l1 = l2 \/ all_comparable (l1 ++ l2)).
Proof.
  intros (Hv1 & _ & L01 & L21 & Hl1 & _) (Hv2 & _ & L02 & L22 & Hl2 & _). split.
  - rewrite <-!valid_ndim by done. by rewrite Hl1, Hl2.
  - intros i l1 l2. rewrite Hl1, Hl2. destruct i as [|[|[|i]]]; [| | |done]; intros [= <-] [= <-].
    + right. intros a b. rewrite <-fmap_app, !elem_of_list_fmap. intros (? & -> & _) (? & -> & _). by right.
    + by left.
    + right. intros a b. rewrite <-fmap_app, !elem_of_list_fmap. intros (? & -> & _) (? & -> & _). by right.
Qed.

Lemma pre_merge hist ts t y1 y2 :
  ts <> [] -> t ∉ ts -> Forall (fun t => no_inf_hist (hist t)) (ts ++ [t]) ->
  pre_table hist ts y1 -> pre_table hist [t] y2 ->
  exists z, larry_merge y1 y2 false = Ok z /\ pre_table hist (ts ++ [t]) z.
Proof.
  intros Hne Ht Hinf H1 H2. apply Forall_app in Hinf as [Hi1 Hi2].
  pose proof (pre_no_inf _ _ _ Hi1 H1) as Hn1. pose proof (pre_no_inf _ _ _ Hi2 H2) as Hn2.
  destruct (pre_axes _ _ _ _ _ _ H1 H2) as [Hnd Hcmp].
  assert (Hapart : forall ls v1 v2, cell y1 ls = Some v1 -> cell y2 ls = Some v2 -> False).
  { intros ls v1 v2 E1 E2. destruct (pre_cell _ _ _ _ _ H1 E1) as (t1 & i & d & n & -> & -> & Hin & _).
    destruct (pre_cell _ _ _ _ _ H2 E2) as (t2 & i2 & d2 & n2 & [= <- <- <-] & -> & ->%elem_of_list_singleton & _). done. }
  assert (Hno : forall ls, ~ (is_Some (data_at y1 ls) /\ is_Some (data_at y2 ls))).
  { intros ls [[v1 E1] [v2 E2]]. unfold data_at in E1, E2. destruct (cell y1 ls) as [u1|] eqn:F1; [|done].
    destruct (cell y2 ls) as [u2|] eqn:F2; [|done]. by eapply Hapart. }
  destruct H1 as (Hv1 & Hd1 & L01 & L21 & Hl1 & Hs1 & Hp1 & HD1 & Hc1 & Hm1) eqn:E1. clear E1.
  destruct H2 as (Hv2 & Hd2 & L02 & L22 & Hl2 & Hs2 & Hp2 & HD2 & Hc2 & Hm2) eqn:E2. clear E2.
  destruct (merge_ok y1 y2 false) as [z Hz]; [done..| |done|]; [rewrite Hd1, Hd2; left; by split; [|left]|].
  exists z. split; [done|].
  destruct (merge_spec _ _ _ _ Hv1 Hv2 Hn1 Hn2 Hz) as (_ & Hvz & [HLlen HL] & Hdz & Hcz & _).
  assert (Hdz' : ldtype z = DFloat) by (rewrite Hd1 in Hdz; by destruct Hdz). clear Hdz.
  rewrite Hl1 in HLlen. destruct (llabel z) as [|u0 [|u1 [|u2 [|]]]] eqn:Hlz; try done. clear HLlen.
  pose proof (HL 0 (LStr <$> L01) (LStr <$> L02) u0) as HU0. pose proof (HL 1 (LStr <$> names6) (LStr <$> names6) u1) as HU1.
  pose proof (HL 2 (LDate <$> L21) (LDate <$> L22) u2) as HU2. rewrite Hl1, Hl2 in HU0, HU1, HU2.
  specialize (HU0 eq_refl eq_refl eq_refl). specialize (HU1 eq_refl eq_refl eq_refl). specialize (HU2 eq_refl eq_refl eq_refl).
  apply Permutation_sym, Permutation_singleton_l in Hp2. subst L02. unfold union_label in HU0, HU1, HU2.
  rewrite decide_True in HU1 by done. subst u1.
  rewrite decide_False in HU0.
  2:{ intros E. assert (LStr t ∈ LStr <$> L01) as Hin by (rewrite E; left). apply LStr_elem in Hin. by rewrite Hp1 in Hin. }
  destruct HU0 as [HS0 HU0]. destruct (elems_image LStr u0) as [M0 ->].
  { intros x [Hx|Hx]%HU0; apply elem_of_list_fmap in Hx as (s & -> & _); eauto. }
  assert (HM2 : exists M2, u2 = LDate <$> M2 /\ forall d, d ∈ M2 <-> d ∈ L21 \/ d ∈ L22).
  { case_decide as E.
    - exists L21. subst u2. split; [done|]. intros d. split; [by left|]. intros [H|H]; [done|]. apply LDate_elem. rewrite E. by apply LDate_elem.
    - destruct HU2 as [_ HU2]. destruct (elems_image LDate u2) as [M2 ->].
      { intros x [Hx|Hx]%HU2; apply elem_of_list_fmap in Hx as (s & -> & _); eauto. }
      exists M2. split; [done|]. intros d. specialize (HU2 (LDate d)). by rewrite !LDate_elem in HU2. }
  destruct HM2 as (M2 & -> & HM2).
  assert (HM0 : forall s, s ∈ M0 <-> s ∈ ts ++ [t]).
  { intros s. specialize (HU0 (LStr s)). rewrite !LStr_elem in HU0. rewrite HU0, elem_of_app. by rewrite Hp1. }
  split; [done|]. split; [done|]. exists M0, M2. split_and!; [done|done| | | |].
  - apply NoDup_Permutation; [|apply NoDup_app; split_and!| done].
    + apply lt_sorted_nodup in HS0. by apply NoDup_fmap_1 in HS0.
    + rewrite <-Hp1. apply lt_sorted_nodup in Hs1. by apply NoDup_fmap_1 in Hs1.
    + intros s Hs ->%elem_of_list_singleton. done.
    + apply NoDup_singleton.
  - intros d. rewrite HM2, HD1, HD2. setoid_rewrite elem_of_app. naive_solver.
  - intros s d q i n Hs Hq Hin.
    assert (Hd' : d ∈ M2).
    { apply HM2. apply elem_of_app in Hs as [Hs|Hs]; [left; apply HD1|right; apply HD2]; exists s; split; try done; by eapply fst_elem. }
    rewrite Hcz.
    2:{ constructor; [apply LStr_elem; by apply HM0|]. constructor; [apply LStr_elem; by eapply raw_elem|]. constructor; [by apply LDate_elem|constructor]. }
    rewrite Hdz'. f_equal. apply elem_of_app in Hs as [Hs|Hs].
    + pose proof (Hc1 s d q i n Hs Hq Hin) as E. assert (data_at y2 [LStr s; LStr i; LDate d] = None) as ->.
      { unfold data_at. destruct (cell y2 _) eqn:F; [|done]. exfalso. by eapply Hapart. }
      rewrite (data_at_float _ _ _ Hd1 E). by destruct (decide (n = NaN)) as [-> |].
    + pose proof (Hc2 s d q i n Hs Hq Hin) as E. rewrite (data_at_float _ _ _ Hd2 E). destruct (decide (n = NaN)) as [-> |]; [|done].
      assert (data_at y1 [LStr s; LStr i; LDate d] = None) as ->; [|done].
      unfold data_at. destruct (cell y1 _) eqn:F; [|done]. exfalso. by eapply Hapart.
  - intros s d i Hs Hd' Hno' Hi. rewrite Hcz.
    2:{ constructor; [apply LStr_elem; by apply HM0|]. constructor; [by apply LStr_elem|]. constructor; [by apply LDate_elem|constructor]. }
    rewrite Hdz'. f_equal.
    assert (Hd1' : data_at y1 [LStr s; LStr i; LDate d] = None).
    { unfold data_at. destruct (cell y1 _) as [v|] eqn:F; [|done]. cbn. rewrite Hd1.
      assert (Hp : pre_table hist ts y1) by (split; [done|]; split; [done|]; by exists L01, L21).
      destruct (pre_cell _ _ _ _ _ Hp F) as (t1 & i1 & d1 & n & [= <- <- <-] & -> & _ & _ & [(q & Hq & _)|[_ ->]]); [|done].
      by apply fst_elem in Hq. }
    assert (Hd2' : data_at y2 [LStr s; LStr i; LDate d] = None).
    { unfold data_at. destruct (cell y2 _) as [v|] eqn:F; [|done]. cbn. rewrite Hd2.
      assert (Hp : pre_table hist [t] y2) by (split; [done|]; split; [done|]; by exists [t], L22).
      destruct (pre_cell _ _ _ _ _ Hp F) as (t1 & i1 & d1 & n & [= <- <- <-] & -> & _ & _ & [(q & Hq & _)|[_ ->]]); [|done].
      by apply fst_elem in Hq. }
    by rewrite Hd1', Hd2'.
Qed.

Lemma pre_conflict hist ts t y1 y2 d q i n :
  t ∈ ts -> Forall (fun t => no_inf_hist (hist t)) ts ->
  pre_table hist ts y1 -> pre_table hist [t] y2 ->
  (d, q) ∈ hist t -> (i, n) ∈ raw_items q -> n <> NaN ->
  larry_merge y1 y2 false = Err ValueError.
Proof.
  intros Ht Hi H1 H2 Hd Hin Hn.
  assert (Hi2 : Forall (fun t => no_inf_hist (hist t)) [t]) by (apply Forall_singleton; rewrite Forall_forall in Hi; by apply Hi).
  pose proof (pre_no_inf _ _ _ Hi H1) as Hn1. pose proof (pre_no_inf _ _ _ Hi2 H2) as Hn2.
  destruct (pre_axes _ _ _ _ _ _ H1 H2) as [Hnd Hcmp].
  destruct H1 as (Hv1 & Hd1 & L01 & L21 & Hl1 & Hs1 & Hp1 & HD1 & Hc1 & Hm1).
  destruct H2 as (Hv2 & Hd2 & L02 & L22 & Hl2 & Hs2 & Hp2 & HD2 & Hc2 & Hm2).
  apply merge_conflict; [done..|rewrite Hd1, Hd2; left; by split; [|left]|].
  exists [LStr t; LStr i; LDate d].
  rewrite (data_at_float _ _ _ Hd1 (Hc1 t d q i n Ht Hd Hin)).
  rewrite (data_at_float _ _ _ Hd2 (Hc2 t d q i n (elem_of_list_here _ _) Hd Hin)).
  rewrite decide_False by done. split; eauto.
Qed.

(** * All tickers *)

Lemma adjusted_proportion q i p c :
  (i, Fin p) ∈ raw_items q -> i <> "volume"%string -> q_close q = Fin c -> c <> 0%Qc ->
  forall a n, q_adjclose q = Fin a -> (i, n) ∈ adjusted_items q -> exists r, n = Fin r /\ (r * c = p * a)%Qc.
Proof.
  intros Hi Hv Hc Hc0 a n Ha Hn. unfold raw_items in Hi. unfold adjusted_items in Hn. rewrite Hc, Ha in *.
  unfold num_div in Hn. rewrite decide_False in Hn by done.
  assert (E : (p * (a / c) * c = p * a)%Qc) by (field; done).
  repeat (apply elem_of_cons in Hn as [Hn|Hn]); [| | | | |by apply elem_of_nil in Hn]; injection Hn as -> ->; try done;
    repeat (apply elem_of_cons in Hi as [Hi|Hi]); try (by apply elem_of_nil in Hi); try (by injection Hi); injection Hi as Hi.
  - rewrite <-Hi. cbn. eauto.
  - exists a. split; [done|]. subst p. apply Qcmult_comm.
  - rewrite <-Hi. cbn. eauto.
  - rewrite <-Hi. cbn. eauto.
Qed.

Section quotes.
  Context (float : string -> option num) (int : string -> option Z) (date : Z -> Z -> Z -> option Z).
  Context (fetch : string -> res text) (hist : string -> history).
  Set Default Proof Using "All".
  (** The page of a ticker holds its history. *)
  Definition page_of (t : string) : Prop :=
    exists page, fetch t = Ok page /\ history_file float int date page (hist t).

  Lemma step_page t lar : page_of t -> hist t <> [] ->
    quotes_step float int date fetch lar t =
      (qlar ← quote_larry (hist t); qlar ← insertaxis qlar (Some 0%Z) (LStr t);
       match lar with None => Ok (Some qlar) | Some lar => lar ← larry_merge lar qlar false; Ok (Some lar) end).
  Proof.
    intros (page & Hf & Hh) Hne. unfold quotes_step. rewrite Hf. cbn. rewrite (parse_history _ _ _ _ _ Hh). cbn. by rewrite decide_False.
  Qed.

  Lemma fold_pages ts :
    ts <> [] -> NoDup ts -> Forall page_of ts -> Forall (fun t => good_history (hist t)) ts ->
    exists z, foldM (quotes_step float int date fetch) None ts = Ok (Some z) /\ pre_table hist ts z.
  Proof.
    induction ts as [|t ts IH] using rev_ind; [done|]. intros _ Hn Hp Hg.
    apply NoDup_app in Hn as (Hn & Hdis & _). apply Forall_app in Hp as [Hp Hpt']. pose proof (proj1 (Forall_singleton _ _) Hpt') as Hpt.
    assert (Hg0 := Hg). apply Forall_app in Hg as [Hg (Hne & Hnd & _)%Forall_singleton].
    destruct (pre_single hist t Hnd) as (q & y & Hq & Hy & Hpre).
    rewrite foldM_app. destruct (decide (ts = [])) as [-> |Hts].
    - cbn [foldM mbind res_bind app]. rewrite (step_page t None Hpt Hne), Hq. cbn [mbind res_bind]. rewrite Hy. by exists y.
    - destruct (IH Hts Hn Hp Hg) as (z & Hz & Hprez). rewrite Hz. cbn [foldM mbind res_bind].
      rewrite (step_page t _ Hpt Hne), Hq. cbn [mbind res_bind]. rewrite Hy. cbn [mbind res_bind].
      destruct (pre_merge hist ts t z y) as (z' & Hm & Hpre'); [done| | |done|done|].
      + intros Hin. apply (Hdis t Hin). left.
      + eapply Forall_impl; [exact Hg0|]. intros t' (_ & _ & H). exact H.
      + rewrite Hm. by exists z'.
  Qed.

  Lemma date_sorted ds : StronglySorted lab_lt (LDate <$> ds) -> StronglySorted Z.lt ds.
  Proof.
    induction ds as [|d ds IH]; [constructor|]. rewrite fmap_cons. intros [Hs Hf]%StronglySorted_inv. constructor; [by apply IH|].
    eapply Forall_impl; [exact (proj1 (Forall_fmap LDate _ ds) Hf)|]. intros d2. unfold compose, lab_lt. cbn. by destruct (Z.compare_spec d d2).
  Qed.

  Lemma pre_sorted ts z : pre_table hist ts z ->
    exists z', sortaxis z (Some (-1)%Z) false = Ok z' /\ table_with false hist ts z'.
  Proof.
    intros (Hv & Hd & L0 & L2 & Hl & Hs & Hp & HD & Hc & Hm).
    assert (Hax : axis_is z (-1)%Z 2) by (unfold axis_is; rewrite Hl; cbn; lia).
    destruct (sortaxis_ok z (Some (-1)%Z) false Hv) as [z' Hz'].
    { intros ax l [Hax1 Hax2]. rewrite Hl in *. cbn in Hax1, Hax2. assert (ax = 2) as -> by lia. intros [= <-].
      intros a b. rewrite !elem_of_list_fmap. intros (? & -> & _) (? & -> & _). by right. }
    { intros a [= <-]. by exists 2. }
    exists z'. split; [done|].
    destruct (sortaxis_full _ _ _ _ Hv Hz') as (Hv' & Hd' & Hlen & Hc' & HL).
    split; [done|]. split; [congruence|]. rewrite Hl in Hlen, HL.
    destruct (llabel z') as [|u0 [|u1 [|u2 [|]]]] eqn:Hlz; try done. clear Hlen.
    destruct (HL 0 _ _ eq_refl eq_refl) as (_ & _ & E0). destruct (HL 1 _ _ eq_refl eq_refl) as (_ & _ & E1).
    destruct (HL 2 _ _ eq_refl eq_refl) as (Hp2 & Hs2 & _).
    assert (u0 = LStr <$> L0) as ->. { apply E0. cbn. unfold axis_is. rewrite Hl. cbn. lia. }
    assert (u1 = LStr <$> names6) as ->. { apply E1. cbn. unfold axis_is. rewrite Hl. cbn. lia. }
    specialize (Hs2 Hax). destruct (elems_image LDate u2) as [M2 ->].
    { intros x Hx. rewrite Hp2 in Hx. apply elem_of_list_fmap in Hx as (d & -> & _). eauto. }
    assert (HM : forall d, d ∈ M2 <-> d ∈ L2). { intros d. rewrite <-(LDate_elem d M2), Hp2. apply LDate_elem. }
    exists L0, M2. split_and!; [done|done|done| |by setoid_rewrite HM| |].
    - apply date_sorted, sorted_lt_nodup; [exact Hs2|]. apply valid_nodup in Hv'. rewrite Hlz in Hv'.
      by apply (Forall_lookup_1 _ _ 2 _ Hv').
    - intros t d q i n Ht Hq Hi. rewrite Hc'. by eapply Hc.
    - intros t d i Ht Hdd Hno Hi. rewrite Hc'. apply Hm; [done|by apply HM|done|done].
  Qed.

  Lemma adjust_day_length l : length (adjust_day l) = length l.
  Proof. do 7 (destruct l as [|[] l]; try done). Qed.
  Definition names5 : list string := item_names true.

  Lemma six {A} (l : list A) : length l = 6 -> exists a b c d e f, l = [a; b; c; d; e; f].
  Proof. intros H. do 6 (destruct l as [|? l]; [done|]). destruct l; [|done]. by repeat eexists. Qed.

  Lemma adjust_table ts z : table_with false hist ts z -> exists z', adjust_quotes z = Ok z' /\ table_with true hist ts z'.
  Proof.
    intros (Hv & Hd & L0 & L2 & Hl & Hs & Hp & Hs2 & HD & Hc & Hm). change (item_names false) with names6 in *.
    assert (Hsh : [length L0; 6; length L2] = shape (larr z)).
    { pose proof (valid_shape z Hv) as Hsh. rewrite Hl in Hsh. rewrite !fmap_cons, !fmap_length in Hsh. exact Hsh. }
    assert (is_Some (along adjust_day (larr z) 1)) as [x Hx].
    { apply along_is_Some; [apply adjust_day_length|by apply valid_wf|]. rewrite <-Hsh. cbn. eauto. }
    destruct (along_Some _ _ _ _ adjust_day_length (valid_wf _ Hv) Hx) as (Hxs & Hxw & Hxg).
    set (y := Larry (Nda DFloat x) (llabel z)).
    (* the lane of a ticker and a date *)
    assert (Hlane : forall a j c t s d, L0 !! a = Some t -> names6 !! j = Some s -> L2 !! c = Some d ->
      exists o cl h w v ac, aget x [a; j; c] = adjust_day [VFloat o; VFloat cl; VFloat h; VFloat w; VFloat v; VFloat ac] !! j /\
      cell z [LStr t; LStr "open"; LDate d] = Some (VFloat o) /\ cell z [LStr t; LStr "close"; LDate d] = Some (VFloat cl) /\
      cell z [LStr t; LStr "high"; LDate d] = Some (VFloat h) /\ cell z [LStr t; LStr "low"; LDate d] = Some (VFloat w) /\
      cell z [LStr t; LStr "volume"; LDate d] = Some (VFloat v) /\ cell z [LStr t; LStr "adjclose"; LDate d] = Some (VFloat ac)).
    { intros a j c t s d Ha Hj Hcc.
      assert (Hr : in_range (shape (larr z)) [a; j; c]).
      { rewrite <-Hsh. repeat (apply in_range_cons'; split); [by eapply lookup_lt_Some| |by eapply lookup_lt_Some|by apply in_range_nil]. apply lookup_lt_Some in Hj. exact Hj. }
      destruct (Hxg _ Hr) as (l & k & Hlan & [= <-] & Hg & _). rewrite Hg. clear Hg.
      apply lane_Some in Hlan as (n & Hn & Hlen & Hlk). rewrite <-Hsh in Hn. injection Hn as <-.
      assert (Hcell : forall j s, names6 !! j = Some s -> exists n, l !! j = Some (VFloat n) /\ cell z [LStr t; LStr s; LDate d] = Some (VFloat n)).
      { intros j' s' Hj'. assert (Hlat : labels_at (llabel z) [a; j'; c] [LStr t; LStr s'; LDate d]).
        { rewrite Hl. constructor; [by rewrite list_lookup_fmap, Ha|]. constructor; [by rewrite list_lookup_fmap, Hj'|].
          constructor; [by rewrite list_lookup_fmap, Hcc|constructor]. }
        destruct (valid_cell_at z _ _ Hv Hlat) as (v & Hv1 & Hv2). pose proof (valid_cell_typed _ _ _ Hv Hv2) as Hty. rewrite Hd in Hty.
        destruct v as [nn| | | | |]; try done. exists nn. split; [|done]. rewrite <-Hlk; [exact Hv1|]. apply lookup_lt_Some in Hj'. exact Hj'. }
      destruct (six l Hlen) as (? & ? & ? & ? & ? & ? & ->).
      destruct (Hcell 0 _ eq_refl) as (o & [= ->] & Ho). destruct (Hcell 1 _ eq_refl) as (cl & [= ->] & Hcl).
      destruct (Hcell 2 _ eq_refl) as (h & [= ->] & Hh). destruct (Hcell 3 _ eq_refl) as (w & [= ->] & Hw).
      destruct (Hcell 4 _ eq_refl) as (v & [= ->] & Hvv). destruct (Hcell 5 _ eq_refl) as (ac & [= ->] & Hac).
      by exists o, cl, h, w, v, ac. }
    assert (Hvy : valid y).
    { split_and!; [|by destruct Hv as (_ & ? & _)| |exact (valid_nodup z Hv)].
      - split; [exact Hxw|]. apply Forall_forall. intros v Hin. apply elem_of_data in Hin as [idx Hg]; [|exact Hxw].
        change (nd_dtype (lx y)) with DFloat. change (nd_arr (lx y)) with x in Hg.
        pose proof (get_in_range _ _ _ Hg) as Hr. rewrite Hxs, <-Hsh in Hr.
        apply in_range_cons in Hr as (a & idx1 & -> & Ha & Hr). apply in_range_cons in Hr as (j & idx2 & -> & Hj & Hr).
        apply in_range_cons in Hr as (c & idx3 & -> & Hc' & ->%in_range_nil). change (j < length names6) in Hj.
        apply lookup_lt_is_Some in Ha as [t Ht], Hj as [s' Hs'], Hc' as [d Hd'].
        destruct (Hlane a j c t s' d Ht Hs' Hd') as (o & cl & h & w & vv & ac & E & _). rewrite E in Hg.
        do 6 (destruct j as [|j]; [by injection Hg as <-|]). done.
      - unfold lshape, nd_shape. change (nd_arr (lx y)) with x. rewrite Hxs. exact (valid_shape z Hv). }
    assert (Hcy : forall t d, t ∈ L0 -> d ∈ L2 ->
      exists o cl h w v ac,
      cell z [LStr t; LStr "open"; LDate d] = Some (VFloat o) /\ cell z [LStr t; LStr "close"; LDate d] = Some (VFloat cl) /\
      cell z [LStr t; LStr "high"; LDate d] = Some (VFloat h) /\ cell z [LStr t; LStr "low"; LDate d] = Some (VFloat w) /\
      cell z [LStr t; LStr "volume"; LDate d] = Some (VFloat v) /\ cell z [LStr t; LStr "adjclose"; LDate d] = Some (VFloat ac) /\
      forall j s, names6 !! j = Some s ->
        cell y [LStr t; LStr s; LDate d] = adjust_day [VFloat o; VFloat cl; VFloat h; VFloat w; VFloat v; VFloat ac] !! j).
    { intros t d [a Ha]%elem_of_list_lookup [c Hcc]%elem_of_list_lookup.
      destruct (Hlane a 0 c t _ d Ha eq_refl Hcc) as (o & cl & h & w & v & ac & _ & H0 & H1 & H2 & H3 & H4 & H5).
      exists o, cl, h, w, v, ac. split_and!; try done. intros j s' Hj.
      destruct (Hlane a j c t s' d Ha Hj Hcc) as (o' & cl' & h' & w' & v' & ac' & E & G0 & G1 & G2 & G3 & G4 & G5).
      rewrite H0 in G0. rewrite H1 in G1. rewrite H2 in G2. rewrite H3 in G3. rewrite H4 in G4. rewrite H5 in G5.
      injection G0 as <-. injection G1 as <-. injection G2 as <-. injection G3 as <-. injection G4 as <-. injection G5 as <-.
      rewrite <-E. apply (cell_at y [a; j; c]); [by apply valid_nodup|]. change (llabel y) with (llabel z). rewrite Hl.
      constructor; [by rewrite list_lookup_fmap, Ha|]. constructor; [by rewrite list_lookup_fmap, Hj|].
      constructor; [by rewrite list_lookup_fmap, Hcc|constructor]. }
    unfold adjust_quotes. rewrite Hx. cbn [of_opt mbind res_bind]. rewrite Hd. fold y.
    set (ix := XTuple [ISlice slice_all; ISlice (Slice None (Some (-1)%Z) None)]).
    destruct (getitem_complete y ix [Among (LStr <$> L0); Among (LStr <$> names5); Among (LDate <$> L2)]) as (g & Hg & Hpick).
    { done. }
    { cbn. by repeat constructor. }
    { right. intros i j p q _ _ Hj. cbn in Hj. destruct j as [|[|j]]; [| |done]; injection Hj as <-; done. }
    { intros i j p q Hi Hj. cbn in Hi. destruct i as [|[|i]]; [| |done]; injection Hi as <-; done. }
    { cbn. intros Hf. inversion Hf; subst. done. }
    { change (llabel y) with (llabel z). rewrite Hl. split; [cbn; lia|]. cbn. constructor; [by apply py_slice_all|].
      constructor; [by vm_compute|]. constructor; [by apply py_slice_all|constructor]. }
    { cbn [sel_labels omap list_omap]. apply valid_nodup in Hv. rewrite Hl in Hv. apply Forall_cons in Hv as [N0 Hv]. apply Forall_cons in Hv as [_ N2].
      constructor; [done|]. constructor; [|done]. apply LStr_nodup. refine (bool_decide_unpack _ _). by vm_compute. }
    rewrite Hg. cbn [mbind res_bind]. destruct g as [z'|v|w]; [|exfalso; by destruct Hpick as [[=] _]|done].
    exists z'. split; [done|]. destruct Hpick as (Hvz' & Hdz' & Hlz' & Hcz'). cbn [sel_labels omap list_omap] in Hlz'.
    assert (Hcell : forall t i d, t ∈ L0 -> i ∈ names5 -> d ∈ L2 -> cell z' [LStr t; LStr i; LDate d] = cell y [LStr t; LStr i; LDate d]).
    { intros t i d Ht Hi Hdd. destruct (Hcz' [LStr t; LStr i; LDate d]) as (full & [= <-] & E); [|exact E].
      rewrite Hlz'. constructor; [by apply LStr_elem|]. constructor; [by apply LStr_elem|]. constructor; [by apply LDate_elem|constructor]. }
    split; [done|]. split; [exact Hdz'|]. exists L0, L2. split_and!; [done|done|done|done|done| |].
    - intros t d q i n Ht Hq Hi.
      assert (HdL : d ∈ L2) by (apply HD; exists t; split; [done|]; by eapply fst_elem).
      assert (HtL : t ∈ L0) by by rewrite Hp.
      rewrite Hcell; [|done| |done].
      2:{ change names5 with (adjusted_items q).*1. apply elem_of_list_fmap. by exists (i, n). }
      destruct (Hcy t d HtL HdL) as (o & cl & h & w & v & ac & H0 & H1 & H2 & H3 & H4 & H5 & Hall).
      assert (Hraw : forall s n, (s, n) ∈ raw_items q -> cell z [LStr t; LStr s; LDate d] = Some (VFloat n)) by (intros; by eapply Hc).
      rewrite (Hraw "open" (q_open q))%string in H0 by left.
      rewrite (Hraw "close" (q_close q))%string in H1 by (do 1 right; left).
      rewrite (Hraw "high" (q_high q))%string in H2 by (do 2 right; left).
      rewrite (Hraw "low" (q_low q))%string in H3 by (do 3 right; left).
      rewrite (Hraw "volume" (num_of_Z (q_volume q)))%string in H4 by (do 4 right; left).
      rewrite (Hraw "adjclose" (q_adjclose q))%string in H5 by (do 5 right; left).
      injection H0 as <-. injection H1 as <-. injection H2 as <-. injection H3 as <-. injection H4 as <-. injection H5 as <-.
      cbn [items_of adjusted_items] in Hi. 
      repeat (apply elem_of_cons in Hi as [[= -> ->]|Hi]); [exact (Hall 0 _ eq_refl)|exact (Hall 1 _ eq_refl)|exact (Hall 2 _ eq_refl)
        |exact (Hall 3 _ eq_refl)|exact (Hall 4 _ eq_refl)|by apply elem_of_nil in Hi].
    - intros t d i Ht HdL Hno Hi.
      assert (HtL : t ∈ L0) by by rewrite Hp. rewrite Hcell by done.
      destruct (Hcy t d HtL HdL) as (o & cl & h & w & v & ac & H0 & H1 & H2 & H3 & H4 & H5 & Hall).
      assert (Hraw : forall s, s ∈ names6 -> cell z [LStr t; LStr s; LDate d] = Some (VFloat NaN)) by (intros; by apply Hm).
      rewrite Hraw in H0 by left. rewrite Hraw in H1 by (do 1 right; left). rewrite Hraw in H2 by (do 2 right; left).
      rewrite Hraw in H3 by (do 3 right; left). rewrite Hraw in H4 by (do 4 right; left). rewrite Hraw in H5 by (do 5 right; left).
      injection H0 as <-. injection H1 as <-. injection H2 as <-. injection H3 as <-. injection H4 as <-. injection H5 as <-.
      cbn in Hi.
      repeat (apply elem_of_cons in Hi as [-> |Hi]); [exact (Hall 0 _ eq_refl)|exact (Hall 1 _ eq_refl)|exact (Hall 2 _ eq_refl)
        |exact (Hall 3 _ eq_refl)|exact (Hall 4 _ eq_refl)|by apply elem_of_nil in Hi].
  Qed.

  Lemma quotes_table ts adjust :
    ts <> [] -> NoDup ts -> Forall page_of ts -> Forall (fun t => good_history (hist t)) ts ->
    exists z, quotes float int date fetch ts adjust = Ok z /\ table_with adjust hist ts z.
  Proof.
    intros Hne Hn Hp Hg. destruct (fold_pages ts Hne Hn Hp Hg) as (z & Hz & Hpre).
    destruct (pre_sorted _ _ Hpre) as (z' & Hs & Ht). unfold quotes. rewrite Hz. cbn [mbind res_bind]. rewrite Hs. cbn [mbind res_bind].
    destruct adjust; [by apply adjust_table|by exists z'].
  Qed.

  Lemma quotes_stop ts t ts' adjust e :
    NoDup ts -> Forall page_of ts -> Forall (fun t => good_history (hist t)) ts ->
    (forall lar, lar = None /\ ts = [] \/ (exists z, lar = Some z /\ pre_table hist ts z) -> quotes_step float int date fetch lar t = Err e) ->
    quotes float int date fetch (ts ++ t :: ts') adjust = Err e.
  Proof.
    intros Hn Hp Hg He. unfold quotes. rewrite foldM_app. destruct (decide (ts = [])) as [-> |Hts].
    - cbn [foldM mbind res_bind]. by rewrite He by by left.
    - destruct (fold_pages ts Hts Hn Hp Hg) as (z & Hz & Hpre). rewrite Hz. cbn [foldM mbind res_bind].
      by rewrite He by (right; eauto).
  Qed.
  Lemma quotes_repeat ts t ts' adjust d q i n :
    NoDup ts -> Forall page_of ts -> Forall (fun t => good_history (hist t)) ts ->
    t ∈ ts -> (d, q) ∈ hist t -> (i, n) ∈ raw_items q -> n <> NaN ->
    quotes float int date fetch (ts ++ t :: ts') adjust = Err ValueError.
  Proof.
    intros Hn Hp Hg Ht Hd Hi Hnan. apply quotes_stop; [done..|]. intros lar [[_ ->]|(z & -> & Hpre)]; [by apply elem_of_nil in Ht|].
    pose proof (proj1 (Forall_forall _ _) Hp t Ht) as Hpt. pose proof (proj1 (Forall_forall _ _) Hg t Ht) as (Hne & Hnd & _).
    rewrite (step_page t _ Hpt Hne). destruct (pre_single hist t Hnd) as (q' & y & Hq & Hy & Hpre'). rewrite Hq. cbn [mbind res_bind].
    rewrite Hy. cbn [mbind res_bind]. rewrite (pre_conflict hist ts t z y d q i n); try done.
    eapply Forall_impl; [exact Hg|]. intros t' (_ & _ & H). exact H.
  Qed.
  Lemma quotes_no_data ts t ts' adjust page :
    NoDup ts -> Forall page_of ts -> Forall (fun t => good_history (hist t)) ts ->
    fetch t = Ok page -> history_file float int date page [] ->
    quotes float int date fetch (ts ++ t :: ts') adjust = Err TypeError.
  Proof.
    intros Hn Hp Hg Hf Hh. apply quotes_stop; [done..|]. intros lar _. unfold quotes_step. rewrite Hf. cbn.
    by rewrite (parse_history _ _ _ _ _ Hh).
  Qed.
  Lemma quotes_fetch ts t ts' adjust e :
    NoDup ts -> Forall page_of ts -> Forall (fun t => good_history (hist t)) ts ->
    fetch t = Err e -> quotes float int date fetch (ts ++ t :: ts') adjust = Err e.
  Proof. intros Hn Hp Hg Hf. apply quotes_stop; [done..|]. intros lar _. unfold quotes_step. by rewrite Hf. Qed.
End quotes.
