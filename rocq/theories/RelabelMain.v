(** Programs on relabelled larrys. *)
From Verif Require Export RelabelAlign.

(** Numbers. *)
Lemma rename_as_out f x L : as_out x (rename_lists f L) = rl_out f <$> as_out x L.
Proof. unfold as_out. by destruct (nd_shape x); [destruct (aget (nd_arr x) [])|]. Qed.
Lemma rename_cum f op y axis : larry_cum op (relabelled f y) axis = relabelled f <$> larry_cum op y axis.
Proof. unfold larry_cum. destruct axis; [|done]. rl. Qed.
Lemma rename_clip f y lo hi : larry_clip (relabelled f y) lo hi = relabelled f <$> larry_clip y lo hi.
Proof. unfold larry_clip. rewrite rl_ldtype. rl. Qed.
Lemma rename_reduce f op y axis : larry_reduce op (relabelled f y) axis = rl_out f <$> larry_reduce op y axis.
Proof.
  unfold larry_reduce. rewrite ?rl_lsize, ?rl_lndim, ?rl_lshape, ?rl_larr, ?rl_ldtype, ?rl_llabel, ?rl_lx, <-?rename_lists_remove.
  repeat (first [progress cbn [mbind res_bind fmap res_fmap of_opt] | rewrite <-rename_lists_remove | rewrite rename_as_out
    | match goal with
      | |- context [of_opt _ ?e] => rl_case e
      | |- context [@mbind res _ _ _ _ ?e] => rl_case e
      | |- context [match ?e with _ => _ end] => rl_case e
      end]); try done.
Qed.
Lemma rename_std f sqrt y axis ddof : larry_std sqrt (relabelled f y) axis ddof = rl_out f <$> larry_std sqrt y axis ddof.
Proof.
  unfold larry_std, larry_var. rewrite rename_reduce, rl_lsize. destruct (larry_reduce _ y axis) as [[z|v]|]; cbn; [| |done]; by destruct (decide _).
Qed.
Lemma rename_prod f y axis : larry_prod (relabelled f y) axis = rl_out f <$> larry_prod y axis.
Proof.
  unfold larry_prod. rewrite rl_lx, rl_llabel, rl_lndim. destruct (test_mask is_nan (lx y)) as [idx|]; [|done]. cbn [mbind res_bind].
  destruct (putmask_scalar (lx y) idx (VInt 1)) as [x|]; [|done]. cbn [mbind res_bind]. rewrite <-rl_larry, rename_reduce.
  destruct (larry_reduce RProd _ axis) as [r|]; [|done]. cbn [fmap res_fmap mbind res_bind]. destruct axis as [a|].
  - destruct (py_index _ a) as [ax|]; [|done]. cbn [of_opt mbind res_bind]. destruct (reduce _ idx ax) as [m|]; [|done]. cbn [of_opt mbind res_bind].
    destruct (shape m).
    + by destruct (forallb id (data m)).
    + destruct r as [z|v]; cbn [rl_out]; [|done]. rewrite rl_lx. by destruct (putmask_scalar _ m _).
  - by destruct (forallb id (data idx)).
Qed.
Ltac rl_red :=
  rewrite ?rl_lsize, ?rl_lndim, ?rl_lshape, ?rl_larr, ?rl_ldtype, ?rl_llabel, ?rl_lx, <-?rename_lists_remove;
  repeat (first [progress cbn [mbind res_bind fmap res_fmap of_opt] | rewrite <-rename_lists_remove | rewrite rename_as_out
    | match goal with
      | |- context [of_opt _ ?e] => rl_case e
      | |- context [@mbind res _ _ _ _ ?e] => rl_case e
      | |- context [match ?e with _ => _ end] => rl_case e
      end]); try done.
Lemma rename_lastrank f y axis : larry_lastrank (relabelled f y) axis = rl_out f <$> larry_lastrank y axis.
Proof. unfold larry_lastrank. rl_red. Qed.
Lemma rename_reduce_nums f F e y axis : reduce_nums F e (relabelled f y) axis = rl_out f <$> reduce_nums F e y axis.
Proof. unfold reduce_nums. rl_red. Qed.
Lemma rename_decay f exp y axis decay : larry_lastrank_decay exp (relabelled f y) axis decay = rl_out f <$> larry_lastrank_decay exp y axis decay.
Proof.
  unfold larry_lastrank_decay. rewrite rl_lndim, rl_lsize, !rename_reduce_nums, rename_lastrank.
  destruct (py_index _ axis); [|done]. cbn [of_opt mbind res_bind]. destruct (decide _); [done|]. destruct (num_ltb _ decay); [done|]. by destruct (num_ltb _ _).
Qed.
Lemma rename_geometric f log exp y axis check : larry_geometric_mean log exp (relabelled f y) axis check = rl_out f <$> larry_geometric_mean log exp y axis check.
Proof.
  unfold larry_geometric_mean. rewrite rl_lsize, rl_lx, rl_larr, !rename_reduce_nums. destruct (decide _); [done|]. destruct (check_numeric _); [|done]. cbn [of_opt mbind res_bind].
  by destruct (check && _).
Qed.
Lemma rename_cut_slices f p cut y : cut_slices p cut (relabelled f y) = relabelled f <$> cut_slices p cut y.
Proof.
  unfold cut_slices. rewrite rl_lndim, rl_larr, rl_lx, rl_llabel, rl_ldtype. destruct (mapR _ (seq 0 (lndim y))) as [ids|]; [|done]. cbn [mbind res_bind].
  assert (zip (rename_lists f (llabel y)) ids = (fun q : list lab * list nat => (rename_list f q.1, q.2)) <$> zip (llabel y) ids) as ->.
  { generalize (llabel y). intros L. revert ids. unfold rename_lists. induction L as [|l L IH]; intros [|i ids]; try done. cbn. f_equal. apply IH. }
  rewrite (mapR_fmap_eq _ _ (fun q : list lab * list nat => rename_list f <$> of_opt IndexError (mapM (q.1 !!.) q.2))).
  2: { intros [l ps] _. cbn [fst snd]. rewrite rename_lookups. by destruct (mapM (l !!.) ps). }
  rewrite (mapR_fmap_out (rename_list f) _ (fun q : list lab * list nat => of_opt IndexError (mapM (q.1 !!.) q.2))) by done.
  destruct (mapR _ (zip (llabel y) ids)) as [L|]; [|done]. cbn [fmap res_fmap mbind res_bind]. by destruct (outer_take _ ids).
Qed.
Lemma rename_vacuum f y axis : vacuum (relabelled f y) axis = relabelled f <$> vacuum y axis.
Proof. apply rename_cut_slices. Qed.
Lemma rename_cut_missing f y frac axis : cut_missing (relabelled f y) frac axis = relabelled f <$> cut_missing y frac axis.
Proof.
  unfold cut_missing. rewrite rl_lndim. match goal with |- ?e ≫= _ = _ => destruct e as [keep|] end; [|done]. cbn [mbind res_bind].
  rewrite rename_cut_slices. destruct (cut_slices _ _ y) as [z|]; [|done]. cbn [fmap res_fmap mbind res_bind]. rewrite rl_lsize. by destruct (decide _).
Qed.
Lemma rename_push f y w axis : larry_push (relabelled f y) w axis = relabelled f <$> larry_push y w axis.
Proof. unfold larry_push. rewrite rl_ldtype. rl. Qed.
Lemma rename_keep_x f y op v vac : keep_x (relabelled f y) op v vac = relabelled f <$> keep_x y op v vac.
Proof.
  unfold keep_x. rewrite rl_lndim, rl_lx, rl_ldtype, rl_llabel. destruct (vac && _); [done|]. destruct op as [op|]; [|done]. cbn [of_opt mbind res_bind].
  destruct (scalar_nda v) as [a|]; [|done]. cbn [mbind res_bind]. destruct (np_compare op (lx y) a) as [r|]; [|done]. cbn [mbind res_bind].
  assert (forall idx, (x ← blank (lx y) idx; let z := Larry x (rename_lists f (llabel y)) in if vac then vacuum z AxNone else Ok z) =
    relabelled f <$> (x ← blank (lx y) idx; let z := Larry x (llabel y) in if vac then vacuum z AxNone else Ok z)) as E.
  { intros idx. destruct (blank (lx y) idx) as [x|]; [|done]. cbn [mbind res_bind]. cbv zeta. destruct vac; [|done]. by rewrite <-rl_larry, rename_vacuum. }
  destruct (ldtype y), r as [idx|b]; try done; apply E.
Qed.
Lemma rename_ufunc f F y : larry_ufunc F (relabelled f y) = relabelled f <$> larry_ufunc F y.
Proof. unfold larry_ufunc. rewrite rl_ldtype. by destruct (ldtype y). Qed.
Lemma rename_power f pow y q : larry_power pow (relabelled f y) q = relabelled f <$> larry_power pow y q.
Proof.
  unfold larry_power. rewrite rl_ldtype. destruct (ldtype y), q; rewrite ?rename_ufunc; try done. by destruct (decide _).
Qed.
Lemma rename_group f g F y z axis : relabelling f g -> larry_group F (relabelled f y) (Some (relabelled f z)) axis = relabelled f <$> larry_group F y (Some z) axis.
Proof.
  intros Hf. unfold larry_group, group_align. rewrite rl_lndim, rl_lx. destruct (decide _); [done|]. rewrite rename_py_axis.
  destruct (py_axis y axis) as [ax|]; [|done]. cbn [mbind res_bind]. rewrite !rename_axis_label. destruct (axis_label y ax) as [l|]; [|done].
  cbn [fmap res_fmap mbind res_bind]. destruct (axis_label z 0) as [gl|]; [|done]. cbn [fmap res_fmap mbind res_bind].
  assert (forallb (fun x => bool_decide (x ∈ rename_list f gl)) (rename_list f l) = forallb (fun x => bool_decide (x ∈ gl)) l) as ->.
  { unfold rename_list at 2. clear -Hf. induction l as [|x l IH]; [done|]. cbn. f_equal; [|apply IH]. apply bool_decide_iff. by apply (rename_list_elem f g). }
  destruct (forallb _ l); [|done]. rewrite (rename_morph f g) by done. destruct (morph z l 0) as [z'|]; [|done]. cbn [fmap res_fmap mbind res_bind].
  rewrite rl_larr. by destruct (np_group F (lx y) _ axis).
Qed.

(** Indexing. *)
Lemma rename_items f items sh : np_select sh (rename_item f <$> items) = np_select sh items.
Proof.
  unfold np_select. rewrite fmap_length. destruct (decide _); [done|].
  assert ((rename_item f <$> items) ++ replicate (length sh - length items) (ISlice slice_all) =
    rename_item f <$> (items ++ replicate (length sh - length items) (ISlice slice_all))) as ->.
  { by rewrite fmap_app, fmap_replicate. }
  rewrite zip_fmap_r. rewrite (mapR_fmap_eq _ _ (fun q : nat * item => resolve q.1 q.2)); [done|]. intros [k it] _. by destruct it.
Qed.
Lemma rename_np_getitem {A} f (a : arr A) items : np_getitem a (rename_item f <$> items) = np_getitem a items.
Proof. unfold np_getitem. by rewrite rename_items. Qed.
Lemma rename_np_setitem {A} f (a : arr A) items v : np_setitem a (rename_item f <$> items) v = np_setitem a items v.
Proof. unfold np_setitem. by rewrite rename_items. Qed.
Lemma rename_index_items f ix : index_items (rename_subscript f ix) = rename_item f <$> index_items ix.
Proof. by destruct ix. Qed.
Lemma rename_label_decide f g m i l : relabelling f g -> rename_list f <$> (llabel m !! i) <> Some (rename_list f l) <-> llabel m !! i <> Some l.
Proof.
  intros Hf. destruct (llabel m !! i) as [l'|]; cbn; [|done]. split; intros E E'; apply E; [congruence|]. apply (inj Some) in E'.
  f_equal. by apply (rename_list_inj f g Hf).
Qed.
Lemma decide_iff {A} (P Q : Prop) `{Decision P, Decision Q} (a b : A) : (P <-> Q) -> (if decide P then a else b) = (if decide Q then a else b).
Proof. intros HPQ. destruct (decide P), (decide Q); tauto. Qed.
Lemma rename_item_label f g n l it : relabelling f g -> item_label n (rename_list f l) (rename_item f it) = (fun o : option (list lab) => rename_list f <$> o) <$> item_label n l it.
Proof.
  intros Hf. destruct it as [z|s|zs|bs|m]; cbn [rename_item item_label].
  - by destruct (decide _).
  - rewrite rename_slice. by destruct (py_slice s l).
  - rewrite rename_gets. by destruct (mapM _ zs).
  - rewrite rename_lookups. by destruct (mapM _ _).
  - rewrite rl_ldtype, rl_lndim, rl_llabel, rename_lists_lookup. destruct (decide (ldtype m <> DBool)); [done|]. destruct (decide (lndim m <> 1)); [done|].
    rewrite (decide_iff _ (llabel m !! 0 <> Some l)) by (by apply (rename_label_decide f g)). destruct (decide (llabel m !! 0 <> Some l)); [done|].
    change (bools_of (relabelled f m)) with (bools_of m). rewrite rename_lookups. by destruct (mapM _ _).
Qed.
Lemma rename_somes f (L : list (option (list lab))) : somes ((fun o : option (list lab) => rename_list f <$> o) <$> L) = rename_lists f (somes L).
Proof. unfold somes, rename_lists. induction L as [|[l|] L IH]; [done| |]; cbn; [f_equal|]; apply IH. Qed.
Lemma rename_tuple_label f g y items : relabelling f g -> tuple_label (relabelled f y) (rename_item f <$> items) = rename_lists f <$> tuple_label y items.
Proof.
  intros Hf. unfold tuple_label. rewrite rl_lndim.
  rewrite (mapR_fmap_out (fun o : option (list lab) => rename_list f <$> o) _ (axis_sel y items)).
  - destruct (mapR _ (seq 0 (lndim y))) as [r|]; [|done]. cbn [fmap res_fmap mbind res_bind]. f_equal. apply rename_somes.
  - intros ax _. unfold axis_sel. rewrite rl_lshape. destruct (lshape y !! ax) as [n|]; [|done]. cbn [of_opt mbind res_bind]. rewrite rename_axis_label.
    destruct (axis_label y ax) as [l|]; [|done]. cbn [fmap res_fmap mbind res_bind]. rewrite list_lookup_fmap. destruct (items !! ax) as [it|]; [|done].
    cbn. by apply (rename_item_label f g).
Qed.
Lemma rename_new_larry f g x L v : relabelling f g -> new_larry x (rename_lists f L) v = relabelled f <$> new_larry x L v.
Proof. intros Hf. unfold new_larry. destruct v; [by apply (rename_make f g)|done]. Qed.
Lemma rename_b f (p : item -> bool) (items : list item) : (forall it, p (rename_item f it) = p it) ->
  forallb p (rename_item f <$> items) = forallb p items /\ existsb p (rename_item f <$> items) = existsb p items.
Proof. intros Hp. induction items as [|it items [IH1 IH2]]; [done|]. cbn. rewrite Hp. by rewrite IH1, IH2. Qed.
Lemma rename_getitem f g y ix : relabelling f g -> larry_getitem (relabelled f y) (rename_subscript f ix) = rl_gres f <$> larry_getitem y ix.
Proof.
  intros Hf. destruct ix as [z|s|zs|bs|m|items]; cbn [rename_subscript larry_getitem]; rewrite ?rl_lshape, ?rl_larr, ?rl_ldtype, ?rl_lndim.
  - destruct (lshape y !! 0) as [n|]; [|done]. cbn [of_opt mbind res_bind]. destruct (decide _); [done|]. destruct (np_getitem _ _) as [b|]; [|done].
    cbn [mbind res_bind]. destruct (decide _); [by destruct (aget b [])|]. cbn. by destruct (llabel y).
  - rewrite rename_axis_label. destruct (axis_label y 0) as [l|]; [|done]. cbn [fmap res_fmap mbind res_bind]. rewrite rename_slice.
    destruct (py_slice s l) as [l'|]; [|done]. cbn [fmap res_fmap mbind res_bind]. destruct (np_getitem _ _); [|done]. cbn [mbind res_bind]. by rl_end; cbn [rl_gres]; rl_end.
  - rewrite rename_axis_label. destruct (axis_label y 0) as [l|]; [|done]. cbn [fmap res_fmap mbind res_bind]. rewrite rename_gets.
    destruct (mapM _ zs) as [l'|]; [|done]. cbn [fmap option_fmap option_map of_opt mbind res_bind]. rewrite (rename_nodup f g) by done. destruct (py_nodup l'); [|done].
    destruct (np_take _ zs 0); [|done]. cbn [mbind res_bind]. by rl_end; cbn [rl_gres]; rl_end.
  - rewrite rename_axis_label. destruct (axis_label y 0) as [l|]; [|done]. cbn [fmap res_fmap mbind res_bind]. rewrite rename_lookups.
    destruct (mapM _ _) as [l'|]; [|done]. cbn [fmap option_fmap option_map of_opt mbind res_bind]. destruct (np_getitem _ _); [|done]. cbn [mbind res_bind]. by rl_end; cbn [rl_gres]; rl_end.
  - destruct (decide (ldtype m <> DBool)); [done|]. destruct (decide (lndim m <> 1)); [done|]. rewrite !rl_llabel, !rename_lists_lookup.
    rewrite (decide_iff _ (llabel y !! 0 <> llabel m !! 0)).
    2: { destruct (llabel y !! 0) as [l|], (llabel m !! 0) as [l'|]; cbn; try done. split; intros E E'; apply E; [congruence|].
         apply (inj Some) in E'. f_equal. by apply (rename_list_inj f g Hf). }
    destruct (decide _); [done|]. rewrite rename_axis_label. destruct (axis_label y 0) as [l|]; [|done]. cbn [fmap res_fmap mbind res_bind].
    change (bools_of (relabelled f m)) with (bools_of m). rewrite rename_lookups.
    destruct (mapM _ _) as [l'|]; [|done]. cbn [fmap option_fmap option_map of_opt mbind res_bind].
    change [ILarry (relabelled f m)] with (rename_item f <$> [ILarry m]). rewrite rename_np_getitem. destruct (np_getitem _ _); [|done]. cbn [mbind res_bind].
    rewrite <-rename_lists_insert, (rename_new_larry f g) by done. by destruct (new_larry _ _ _).
  - rewrite (rename_tuple_label f g) by done. destruct (tuple_label y items) as [L|]; [|done]. cbn [fmap res_fmap mbind res_bind]. rewrite rename_np_getitem.
    destruct (np_getitem _ items) as [b|]; [|done]. cbn [mbind res_bind].
    destruct (rename_b f b_int items) as [-> _]; [by intros []|]. destruct (rename_b f b_list items) as [_ ->]; [by intros []|].
    destruct (forallb b_int items).
    + destruct (shape b); [by destruct (aget b [])|done].
    + rewrite (rename_new_larry f g) by done. by destruct (new_larry _ _ _).
Qed.
Lemma rename_setitem f g y ix v : relabelling f g -> larry_setitem (relabelled f y) (rename_subscript f ix) (rename_setval f v) = relabelled f <$> larry_setitem y ix v.
Proof.
  intros Hf. unfold larry_setitem. destruct v as [v|z]; cbn [rename_setval]; rewrite rename_index_items, rl_larr, rl_ldtype.
  - destruct (store _ v); [|done]. cbn [mbind res_bind]. rewrite rename_np_setitem. by destruct (np_setitem _ _ _).
  - rewrite (rename_getitem f g) by done. destruct (larry_getitem y ix) as [[z0|v0|a0]|]; cbn [fmap res_fmap mbind res_bind rl_gres]; try done.
    rewrite !rl_llabel, rl_larr. rewrite (decide_iff _ (llabel z0 = llabel z)).
    2: { split; [apply (rename_lists_inj f g Hf)|by intros ->]. }
    destruct (decide _); [|done]. rewrite rename_np_setitem. by destruct (np_setitem _ _ _).
Qed.
Lemma rename_setmask f g y m v : relabelling f g -> larry_setmask (relabelled f y) (relabelled f m) v = relabelled f <$> larry_setmask y m v.
Proof.
  intros Hf. unfold larry_setmask. rewrite !rl_llabel, !rl_ldtype, !rl_larr, !rl_lx. rewrite (decide_iff _ (llabel y = llabel m)).
  2: { split; [apply (rename_lists_inj f g Hf)|by intros ->]. }
  destruct (decide _); [|done]. destruct (of_opt _ _) as [mask|]; [|done]. cbn [mbind res_bind]. by destruct (putmask_scalar _ _ _).
Qed.
Lemma rename_labels2indices f g l ls : relabelling f g -> labels2indices (rename_list f l) (rename_list f ls) = labels2indices l ls.
Proof.
  intros Hf. unfold labels2indices. f_equal. unfold rename_list at 2. induction ls as [|x ls IH]; [done|]. cbn. rewrite (rename_index_of f g) by done.
  destruct (index_of x l); [|done]. cbn. change (list_fmap lab lab f ls) with (f <$> ls). by rewrite IH.
Qed.
Lemma rename_slice_end f g y ax e : relabelling f g -> slice_end (relabelled f y) ax (rename_end f <$> e) = slice_end y ax e.
Proof.
  intros Hf. destruct e as [[z|ls]|]; try done. cbn [fmap option_fmap option_map rename_end slice_end]. rewrite rename_list_length, rename_list_lookup.
  destruct (decide _); [done|]. destruct (ls !! 0) as [x|]; [|done]. cbn [fmap option_fmap option_map of_opt mbind res_bind]. by rewrite (rename_labelindex f g).
Qed.
Lemma rename_slicemaker f g y ax s : relabelling f g -> slicemaker (relabelled f y) ax (rename_lslice f s) = slicemaker y ax s.
Proof. intros Hf. unfold slicemaker, rename_lslice. cbn [l_start l_stop l_step]. by rewrite !(rename_slice_end f g). Qed.
Definition rl_lix (f : lab -> lab) (p : list Z * option (list lab)) : list Z * option (list lab) := (p.1, rename_list f <$> p.2).
Lemma rename_lix_item f g y ax it : relabelling f g -> lix_item (relabelled f y) ax (rename_litem f it) = rl_lix f <$> lix_item y ax it.
Proof.
  intros Hf. unfold lix_item. rewrite rename_axis_label. destruct (axis_label y ax) as [l|]; [|done]. cbn [fmap res_fmap mbind res_bind].
  destruct it as [z|ls|s]; cbn [rename_litem].
  - done.
  - rewrite (rename_labels2indices f g), rename_list_length by done. destruct (labels2indices l ls); [|done]. cbn. by destruct (decide _).
  - rewrite (rename_slicemaker f g) by done. destruct (slicemaker y ax s) as [s'|]; [|done]. cbn [mbind res_bind]. rewrite rl_lshape.
    destruct (lshape y !! ax) as [n|]; [|done]. cbn [of_opt mbind res_bind]. destruct (slice_positions s' n) as [ps|]; [|done]. cbn [mbind res_bind].
    rewrite rename_slice. destruct (py_slice s' l) as [l'|]; [|done]. cbn [fmap res_fmap mbind res_bind]. rewrite rename_list_length. by destruct (decide _).
Qed.
Lemma rename_lix_items f g y items :
  relabelling f g -> lix_items (relabelled f y) (rename_litem f <$> items) = (fun q : list (list Z * option (list lab)) => rl_lix f <$> q) <$> lix_items y items.
Proof.
  intros Hf. unfold lix_items. rewrite fmap_length, rl_lndim. destruct (decide _); [|done].
  assert ((rename_litem f <$> items) ++ replicate (lndim y - length items) lix_full = rename_litem f <$> (items ++ replicate (lndim y - length items) lix_full)) as ->.
  { by rewrite fmap_app, fmap_replicate. }
  rewrite zip_fmap_r. rewrite (mapR_fmap_eq _ _ (fun q : nat * litem => rl_lix f <$> lix_item y q.1 q.2)).
  - apply mapR_fmap_out. done.
  - intros [ax it] _. cbn [fst snd]. by apply (rename_lix_item f g).
Qed.
Lemma rl_lix_fst f (q : list (list Z * option (list lab))) : (rl_lix f <$> q).*1 = q.*1.
Proof. rewrite <-list_fmap_compose. apply list_fmap_ext. done. Qed.
Lemma rl_lix_snd f (q : list (list Z * option (list lab))) : (rl_lix f <$> q).*2 = (fun o : option (list lab) => rename_list f <$> o) <$> q.*2.
Proof. rewrite <-!list_fmap_compose. apply list_fmap_ext. done. Qed.
Lemma rename_lix_get f g y ix : relabelling f g -> lix_get (relabelled f y) (rename_lix f ix) = rl_gres f <$> lix_get y ix.
Proof.
  intros Hf. unfold lix_get. rewrite rl_lshape. destruct (decide (lshape y = [0])); [done|]. destruct (decide _); [done|].
  destruct ix as [z|ls|s|items]; cbn [rename_lix].
  - by apply (rename_getitem f g y (XInt z)).
  - rewrite rename_axis_label. destruct (axis_label y 0) as [l|]; [|done]. cbn [fmap res_fmap mbind res_bind]. rewrite (rename_labels2indices f g) by done.
    destruct (labels2indices l ls) as [ps|]; [|done]. cbn [mbind res_bind]. destruct ps as [|p [|p' ps]].
    + by apply (rename_getitem f g y (XList _)).
    + by apply (rename_getitem f g y (XInt _)).
    + by apply (rename_getitem f g y (XList _)).
  - rewrite (rename_slicemaker f g) by done. destruct (slicemaker y 0 s) as [s'|]; [|done]. cbn [mbind res_bind]. by apply (rename_getitem f g y (XSlice _)).
  - rewrite (rename_lix_items f g) by done. destruct (lix_items y items) as [q|]; [|done]. cbn [fmap res_fmap mbind res_bind].
    rewrite rl_lix_fst, rl_lix_snd, rl_larr, rl_ldtype. destruct (np_ix _ _) as [b|]; [|done]. cbn [mbind res_bind].
    destruct (shape (np_squeeze b)); [by destruct (aget _ [])|]. rewrite rename_somes, (rename_make f g) by done. by destruct (make _ _).
Qed.
Lemma rename_lix_set f g y ix v : relabelling f g -> lix_set (relabelled f y) (rename_lix f ix) (rename_setval f v) = relabelled f <$> lix_set y ix v.
Proof.
  intros Hf. unfold lix_set. rewrite rl_lshape. destruct (decide (lshape y = [0])); [done|]. destruct (decide _); [done|].
  destruct ix as [z|ls|s|items]; cbn [rename_lix].
  - by apply (rename_setitem f g y (XInt z)).
  - rewrite rename_axis_label. destruct (axis_label y 0) as [l|]; [|done]. cbn [fmap res_fmap mbind res_bind]. rewrite (rename_labels2indices f g) by done.
    destruct (labels2indices l ls) as [ps|]; [|done]. cbn [mbind res_bind]. destruct ps as [|p [|p' ps]].
    + by apply (rename_setitem f g y (XList _)).
    + by apply (rename_setitem f g y (XInt _)).
    + by apply (rename_setitem f g y (XList _)).
  - rewrite (rename_slicemaker f g) by done. destruct (slicemaker y 0 s) as [s'|]; [|done]. cbn [mbind res_bind]. by apply (rename_setitem f g y (XSlice _)).
  - rewrite (rename_lix_items f g) by done. destruct (lix_items y items) as [q|]; [|done]. cbn [fmap res_fmap mbind res_bind].
    rewrite rl_lix_fst, rl_larr, rl_ldtype, fmap_length, rl_llabel. destruct v as [v|z]; cbn [rename_setval].
    + destruct (store _ v); [|done]. cbn [mbind res_bind]. by destruct (np_ix_set _ _ _).
    + rewrite rl_lndim, rl_llabel, rl_larr. destruct (decide (lndim z <> length q)); [done|].
      assert (zip (rename_lists f (llabel y)) (rl_lix f <$> q) = (fun p : list lab * (list Z * option (list lab)) => (rename_list f p.1, rl_lix f p.2)) <$> zip (llabel y) q) as ->.
      { generalize (llabel y). intros L. clear. revert q. unfold rename_lists. induction L as [|l L IH]; intros [|i q]; try done. cbn. f_equal. apply IH. }
      rewrite (mapR_fmap_eq _ _ (fun p : list lab * (list Z * option (list lab)) => rename_list f <$> of_opt IndexError (mapM (py_get p.1) p.2.1))).
      2: { intros [l [zs o]] _. cbn [fst snd rl_lix]. rewrite rename_gets. by destruct (mapM (py_get l) zs). }
      rewrite (mapR_fmap_out (rename_list f) _ (fun p : list lab * (list Z * option (list lab)) => of_opt IndexError (mapM (py_get p.1) p.2.1))) by done.
      destruct (mapR _ (zip (llabel y) q)) as [L|]; [|done]. cbn [fmap res_fmap mbind res_bind].
      change ((fun r : list (list lab) => rename_list f <$> r) L) with (rename_lists f L).
      rewrite (decide_iff _ (L = llabel z)).
      2: { split; [apply (rename_lists_inj f g Hf)|by intros ->]. }
      destruct (decide _); [|done]. cbn [mbind res_bind]. by destruct (np_ix_set _ _ _).
Qed.

(** Labels as tuples. *)
Lemma rename_flatten_step f (idx : list (list lab)) l : flatten_step (rename_list f <$> idx) (rename_list f l) = rename_list f <$> flatten_step idx l.
Proof.
  unfold flatten_step, rename_list at 2. induction l as [|x l IH]; [done|]. cbn. rewrite fmap_app. f_equal; [|apply IH].
  clear. induction idx as [|i idx IH]; [done|]. cbn. f_equal; [|apply IH]. unfold rename_list. by rewrite fmap_app.
Qed.
Lemma rename_flattenlabel_order f L b : flattenlabel_order (rename_lists f L) b = rename_list f <$> flattenlabel_order L b.
Proof.
  unfold flattenlabel_order.
  assert (forall K (idx : list (list lab)), fold_left flatten_step (rename_lists f K) (rename_list f <$> idx) = rename_list f <$> fold_left flatten_step K idx) as E.
  { intros K. induction K as [|l K IH]; intros idx; [done|]. cbn. rewrite rename_flatten_step. apply IH. }
  destruct b.
  - rewrite <-rename_lists_reverse. change [[]] with (rename_list f <$> [[]]) at 1. rewrite E. rewrite <-!list_fmap_compose. apply list_fmap_ext.
    intros ? l _. simpl. by rewrite rename_list_reverse.
  - change [[]] with (rename_list f <$> [[]]) at 1. apply E.
Qed.
Lemma rename_flattenlabel f L order : flattenlabel (rename_lists f L) order = (fun r : list (list lab) => rename_list f <$> r) <$> flattenlabel L order.
Proof. unfold flattenlabel. rewrite !rename_flattenlabel_order. destruct (decide _); [done|]. by destruct (decide _). Qed.
Lemma rename_tuples f g (rows : list (list lab)) : relabelling f g -> LTup <$> (rename_list f <$> rows) = rename_list f (LTup <$> rows).
Proof.
  intros Hf. unfold rename_list. rewrite <-!list_fmap_compose. apply list_fmap_ext. intros ? l _. simpl. symmetry. apply (rl_tuple f g Hf).
Qed.
Lemma rename_flatten f g y order : relabelling f g -> larry_flatten (relabelled f y) order = relabelled f <$> larry_flatten y order.
Proof.
  intros Hf. unfold larry_flatten. rewrite rl_llabel, rl_larr, rl_ldtype, rename_flattenlabel. destruct (flattenlabel (llabel y) order) as [rows|]; [|done].
  cbn [fmap res_fmap mbind res_bind]. destruct (np_flatten _ order); [|done]. cbn [fmap res_fmap mbind res_bind]. rewrite rl_larry.
  change (rename_lists f [LTup <$> rows]) with [rename_list f (LTup <$> rows)]. by rewrite <-(rename_tuples f g).
Qed.
Lemma rename_panel f g y : relabelling f g -> panel (relabelled f y) = relabelled f <$> panel y.
Proof.
  intros Hf. unfold panel. rewrite rl_llabel, rl_lshape, rl_larr, rl_ldtype. destruct (llabel y) as [|l0 [|l1 [|l2 [|l3 L]]]]; try done.
  change (rename_lists f [l0; l1; l2]) with [rename_list f l0; rename_list f l1; rename_list f l2]. cbn beta iota zeta.
  destruct (lshape y) as [|n [|m [|k [|]]]]; try done.
  change [rename_list f l1; rename_list f l2] with (rename_lists f [l1; l2]). rewrite rename_flattenlabel.
  destruct (flattenlabel [l1; l2] "C") as [rows|]; [|done]. cbn [fmap res_fmap mbind res_bind]. destruct (transpose _) as [t|]; [|done]. cbn [of_opt mbind res_bind].
  destruct (decide _); [done|]. destruct (reshape_F t _); [|done]. cbn [of_opt fmap res_fmap mbind res_bind]. rewrite rl_larry.
  change (rename_lists f [LTup <$> rows; l0]) with [rename_list f (LTup <$> rows); rename_list f l0]. by rewrite <-(rename_tuples f g).
Qed.
Lemma rename_py_zip f rows : py_zip (rename_lists f rows) = rename_lists f (py_zip rows).
Proof.
  induction rows as [|r rows IH]; [done|]. destruct rows as [|r' rows].
  - cbn. unfold rename_lists, rename_list. rewrite <-!list_fmap_compose. by apply list_fmap_ext.
  - change (py_zip (rename_lists f (r :: r' :: rows))) with (zip_with cons (rename_list f r) (py_zip (rename_lists f (r' :: rows)))). rewrite IH.
    change (py_zip (r :: r' :: rows)) with (zip_with cons r (py_zip (r' :: rows))). generalize (py_zip (r' :: rows)). clear. intros K. revert K.
    unfold rename_list at 1. induction r as [|x r IH]; intros [|l K]; try done. cbn. unfold rename_lists. cbn. f_equal. apply IH.
Qed.
Lemma rename_fromlists f g xs L : relabelling f g -> fromlists xs (rename_lists f L) = (fun p : nda * option (list (list lab)) => (p.1, (rename_lists f) <$> p.2)) <$> fromlists xs L.
Proof.
  intros Hf. unfold fromlists. assert (rename_lists f L = [] <-> L = []) as Hnil. { destruct L; [done|]. split; done. }
  rewrite (decide_iff _ (xs = [] /\ L = [])) by (by rewrite Hnil). destruct (decide (xs = [] /\ L = [])); [done|].
  assert (mapR list2index (rename_lists f L) = (fun r : list (list nat * list lab) => (fun p : list nat * list lab => (p.1, rename_list f p.2)) <$> r) <$> mapR list2index L) as ->.
  { unfold rename_lists. rewrite (mapR_fmap_eq _ _ (fun l => (fun p : list nat * list lab => (p.1, rename_list f p.2)) <$> list2index l)) by (intros l _; by apply (rename_list2index f g)).
    by apply mapR_fmap_out. }
  destruct (mapR list2index L) as [r|]; [|done]. cbn [fmap res_fmap mbind res_bind].
  assert (((fun p : list nat * list lab => (p.1, rename_list f p.2)) <$> r).*1 = r.*1) as ->. { rewrite <-list_fmap_compose. by apply list_fmap_ext. }
  assert (((fun p : list nat * list lab => (p.1, rename_list f p.2)) <$> r).*2 = rename_lists f r.*2) as ->.
  { unfold rename_lists. rewrite <-!list_fmap_compose. by apply list_fmap_ext. }
  rewrite rename_shape. cbv zeta. rewrite (decide_iff _ (L = [])) by done. destruct (decide (L = [])); [done|].
  destruct (mapR (store DFloat) xs) as [vs|]; [|done]. cbn [mbind res_bind].
  match goal with |- ?e ≫= _ = _ => destruct e as [ws|] end; [|done]. cbn [mbind res_bind]. by destruct (foldM _ _ _).
Qed.
Lemma rename_larry_of f g x o : relabelling f g -> (o = None -> nd_shape x = [0]) -> larry_of (x, rename_lists f <$> o) = relabelled f <$> larry_of (x, o).
Proof.
  intros Hf Ho. unfold larry_of. cbn [fst snd]. destruct o as [L|]; [by apply (rename_make f g)|]. cbn. unfold make. rewrite Ho by done. cbn.
  destruct (decide (nd_ndim x <> 1)); [done|]. by destruct (decide _).
Qed.
Lemma fromlists_none xs L p : fromlists xs L = Ok p -> p.2 = None -> nd_shape p.1 = [0].
Proof.
  unfold fromlists. destruct (decide _); [by intros [= <-]|]. intros H Hp. exfalso. revert H.
  repeat (match goal with |- context [?e ≫= _] => destruct e; cbn [mbind res_bind]; try done | |- context [if decide ?P then _ else _] => destruct (decide P); try done end; cbv zeta).
  intros [= <-]. done.
Qed.
Lemma rename_make_lists f g xs L :
  relabelling f g -> (p ← fromlists xs (rename_lists f L); larry_of p) = relabelled f <$> (p ← fromlists xs L; larry_of p).
Proof.
  intros Hf. rewrite (rename_fromlists f g) by done. destruct (fromlists xs L) as [[x o]|] eqn:E; [|done]. cbn [fmap res_fmap mbind res_bind fst snd].
  apply (rename_larry_of f g); [done|]. intros ->. by apply (fromlists_none _ _ _ E).
Qed.
Lemma rename_fromlist f g d :
  relabelling f g -> larry_fromlist ((fun p : list val * list (list lab) => (p.1, rename_lists f p.2)) <$> d) = relabelled f <$> larry_fromlist d.
Proof. intros Hf. destruct d as [[xs L]|]; [|done].
  change (larry_fromlist ((fun p : list val * list (list lab) => (p.1, rename_lists f p.2)) <$> Some (xs, L))) with (larry_fromlist (Some (xs, rename_lists f L))).
  unfold larry_fromlist. rewrite rename_py_zip. by apply (rename_make_lists f g). Qed.
Lemma rename_keys f (d : list (list lab * val)) : ((fun p : list lab * val => (rename_list f p.1, p.2)) <$> d).*1 = rename_lists f d.*1.
Proof. unfold rename_lists. rewrite <-!list_fmap_compose. by apply list_fmap_ext. Qed.
Lemma rename_vals f (d : list (list lab * val)) : ((fun p : list lab * val => (rename_list f p.1, p.2)) <$> d).*2 = d.*2.
Proof. rewrite <-list_fmap_compose. by apply list_fmap_ext. Qed.
Lemma rename_fromtuples f g d :
  relabelling f g -> larry_fromtuples ((fun p : list lab * val => (rename_list f p.1, p.2)) <$> d) = relabelled f <$> larry_fromtuples d.
Proof.
  intros Hf. unfold larry_fromtuples. rewrite rename_keys, rename_vals. rewrite (decide_iff _ (d = [])) by (by destruct d).
  destruct (decide (d = [])); [done|].
  assert (same_length (rename_lists f d.*1) = same_length d.*1) as ->.
  { generalize (d.*1). intros [|r rows]; [done|]. unfold rename_lists, same_length. rewrite fmap_cons, rename_list_length. generalize (length r). intros k. induction rows as [|r' rows IH]; [done|].
    rewrite fmap_cons. cbn [forallb]. by rewrite rename_list_length, IH. }
  destruct (same_length _); [|done]. rewrite rename_py_zip. by apply (rename_make_lists f g).
Qed.
Lemma rename_fromdict f g d :
  relabelling f g -> larry_fromdict ((fun p : list lab * val => (rename_list f p.1, p.2)) <$> d) = relabelled f <$> larry_fromdict d.
Proof. intros Hf. unfold larry_fromdict. rewrite rename_keys, rename_vals. unfold larry_fromlist. rewrite rename_py_zip. by apply (rename_make_lists f g). Qed.

(** The rest. *)
Lemma rename_cov f y : larry_cov (relabelled f y) = relabelled f <$> larry_cov y.
Proof. unfold larry_cov. rl. Qed.
Lemma rename_sortby f g argsort y x axis rev : relabelling f g -> sortby argsort (relabelled f y) (f x) axis rev = relabelled f <$> sortby argsort y x axis rev.
Proof.
  intros Hf. unfold sortby. rewrite rl_lndim, rl_lsize, rl_larr, rl_ldtype, rename_py_axis. destruct (decide (lndim y <> 2)); [done|].
  assert ((if decide (lsize y = 0) then l ← (ax ← py_axis y axis; axis_label (relabelled f y) ax); Ok (bool_decide (f x ∈ l)) else Ok false) =
    (if decide (lsize y = 0) then l ← (ax ← py_axis y axis; axis_label y ax); Ok (bool_decide (x ∈ l)) else Ok false)) as ->.
  { destruct (decide _); [|done]. destruct (py_axis y axis) as [ax|]; [|done]. cbn [mbind res_bind]. rewrite rename_axis_label. destruct (axis_label y ax) as [l|]; [|done].
    cbn. f_equal. apply bool_decide_iff. by apply (rename_list_elem f g). }
  match goal with |- ?e ≫= _ = _ => destruct e as [early|] end; [|done]. cbn [mbind res_bind]. destruct early; [done|]. cbv zeta.
  match goal with |- context [decide ?P] => destruct (decide P) end; [done|]. rewrite (rename_labelindex f g) by done.
  destruct (labelindex y x _ _) as [i|]; [|done]. cbn [mbind res_bind]. destruct (get_row _ _ i) as [vs|]; [|done]. cbn [of_opt mbind res_bind].
  destruct (decide (ldtype y = DObj)); [done|].
  match goal with |- context [larry_getitem (relabelled f y) ?ix] =>
    assert (larry_getitem (relabelled f y) ix = rl_gres f <$> larry_getitem y ix) as -> by
      (etrans; [|apply (rename_getitem f g); exact Hf]; f_equal; by repeat case_decide; destruct rev) end.
  destruct (larry_getitem y _) as [[]|]; done.
Qed.
Lemma rename_shape_of f sh L : shape_of sh (Some (rename_lists f L)) = shape_of sh (Some L).
Proof. cbn. by rewrite rename_shape. Qed.
Lemma rename_lrange f g sh L start step dt : relabelling f g -> lrange sh (Some (rename_lists f L)) start step dt = relabelled f <$> lrange sh (Some L) start step dt.
Proof.
  intros Hf. unfold lrange. rewrite rename_shape_of. destruct (shape_of sh (Some L)); [|done]. cbn [mbind res_bind].
  destruct (to_num start) as [[]|]; try done. destruct (to_num step) as [[]|]; try done. destruct (decide _); [done|].
  destruct (of_opt _ _); [|done]. cbn [mbind res_bind]. by apply (rename_make f g).
Qed.
Lemma rename_new_empty f g F sh L : relabelling f g -> larry_empty F sh (Some (rename_lists f L)) = relabelled f <$> larry_empty F sh (Some L).
Proof. intros Hf. unfold larry_empty. rewrite rename_shape_of. destruct (shape_of sh (Some L)); [|done]. cbn [mbind res_bind]. by apply (rename_make f g). Qed.
Lemma rename_fill_new f g v F sh L : relabelling f g -> larry_fill_new v F sh (Some (rename_lists f L)) = relabelled f <$> larry_fill_new v F sh (Some L).
Proof. intros Hf. unfold larry_fill_new. rewrite (rename_new_empty f g) by done. destruct (larry_empty F sh (Some L)); [|done]. cbn [fmap res_fmap mbind res_bind]. apply rename_fill. Qed.
Lemma rename_rand f g F args L : relabelling f g -> larry_rand F args (Some (rename_lists f L)) = rl_out f <$> larry_rand F args (Some L).
Proof.
  intros Hf. unfold larry_rand. destruct args as [|n args].
  - rewrite rename_shape, (rename_make f g) by done. by destruct (make _ _).
  - rewrite (rename_make f g) by done. by destruct (make _ _).
Qed.
Lemma rename_shuffle f d y axis : larry_shuffle d (relabelled f y) axis = relabelled f <$> larry_shuffle d y axis.
Proof.
  assert (forall e z ax, shuffle_axis e (relabelled f z) ax = relabelled f <$> shuffle_axis e z ax) as E. { intros e z ax. unfold shuffle_axis. rl. }
  unfold larry_shuffle. destruct axis as [a|].
  - rewrite rl_lndim. destruct (py_index _ a); [|done]. cbn [of_opt mbind res_bind]. apply E.
  - rewrite rl_lndim. apply (foldM_rename (relabelled f)). intros s ax. apply E.
Qed.
Lemma rename_split f g y tr te axis : relabelling f g -> split_data (relabelled f y) tr te axis = rl_pair f <$> split_data y tr te axis.
Proof.
  intros Hf. unfold split_data. rewrite !(rename_take f g) by done. destruct (larry_take y (Z.of_nat <$> tr) axis); [|done].
  by destruct (larry_take y (Z.of_nat <$> te) axis).
Qed.
