(** Methods of relabelled larrys: la/deflarry.py. *)
From Verif Require Export RelabelFacts.

Definition rename_dict {V} (f : lab -> lab) (d : pydict lab V) : pydict lab V := (fun p : lab * V => (f p.1, p.2)) <$> d.
Lemma rename_dict_set {V} f g k (v : V) d : relabelling f g -> dict_set (f k) v (rename_dict f d) = rename_dict f (dict_set k v d).
Proof.
  intros Hf. unfold rename_dict. induction d as [|[k' v'] d IH]; [done|]. cbn. destruct (decide (k = k')) as [->|Hn].
  - by rewrite decide_True.
  - rewrite decide_False by (by rewrite (rename_eq f g)). cbn. by rewrite <-IH.
Qed.
Lemma rename_dict_get {V} f g k (d : pydict lab V) : relabelling f g -> dict_get (rename_dict f d) (f k) = dict_get d k.
Proof.
  intros Hf. unfold rename_dict. induction d as [|[k' v'] d IH]; [done|]. cbn. destruct (decide (k = k')) as [->|Hn].
  - by rewrite decide_True.
  - rewrite decide_False by (by rewrite (rename_eq f g)). apply IH.
Qed.
Lemma rename_dict_zip {V} f g ks (vs : list V) : relabelling f g -> dict_zip (rename_list f ks) vs = rename_dict f (dict_zip ks vs).
Proof.
  intros Hf. unfold dict_zip. change (@nil (lab * V)) with (rename_dict f (@nil (lab * V))) at 1. generalize (@nil (lab * V)) as d.
  revert vs. unfold rename_list. induction ks as [|k ks IH]; intros [|v vs] d; try done. cbn. rewrite (rename_dict_set f g) by done. apply IH.
Qed.
Lemma rename_list1map f g l : relabelling f g -> list1map (rename_list f l) = rename_dict f (list1map l).
Proof. intros Hf. unfold list1map. by rewrite rename_list_length, (rename_dict_zip f g). Qed.

Lemma mapR_fmap_eq {A B C} (h : A -> B) (k : B -> res C) (k' : A -> res C) l :
  (forall x, x ∈ l -> k (h x) = k' x) -> mapR k (h <$> l) = mapR k' l.
Proof.
  induction l as [|x l IH]; intros Hk; [done|]. cbn. rewrite Hk by (by left). destruct (k' x); [|done].
  change (list_fmap A B h l) with (h <$> l). rewrite IH; [done|]. intros z Hz. apply Hk. by right.
Qed.
Lemma mapR_fmap_out {A B C} (h : B -> C) (k : A -> res C) (k' : A -> res B) l :
  (forall x, x ∈ l -> k x = h <$> k' x) -> mapR k l = (fun r : list B => h <$> r) <$> mapR k' l.
Proof.
  induction l as [|x l IH]; intros Hk; [done|]. cbn. rewrite Hk by (by left). destruct (k' x); [|done]. cbn.
  rewrite IH; [by destruct (mapR k' l)|]. intros z Hz. apply Hk. by right.
Qed.
Lemma mapM_fmap_out {A B C} (h : B -> C) (k : A -> option C) (k' : A -> option B) l :
  (forall x, x ∈ l -> k x = h <$> k' x) -> mapM k l = (fun r : list B => h <$> r) <$> mapM k' l.
Proof.
  induction l as [|x l IH]; intros Hk; [done|]. cbn. rewrite Hk by (by left). destruct (k' x); [|done]. cbn.
  rewrite IH; [by destruct (mapM k' l)|]. intros z Hz. apply Hk. by right.
Qed.
Lemma foldM_rename {S X} (h : S -> S) (k k' : S -> X -> res S) s l :
  (forall s x, k (h s) x = h <$> k' s x) -> foldM k (h s) l = h <$> foldM k' s l.
Proof.
  intros Hk. revert s. induction l as [|x l IH]; intros s; [done|]. cbn. rewrite Hk. by destruct (k' s x); [apply IH|].
Qed.

Lemma rename_listmap f g l1 l2 b : relabelling f g -> listmap (rename_list f l1) (rename_list f l2) b = listmap l1 l2 b.
Proof.
  intros Hf. unfold listmap. rewrite (rename_list1map f g) by done. set (d := list1map l1).
  assert (filter (fun i => is_Some (dict_get (rename_dict f d) i)) (rename_list f l2) = rename_list f (filter (fun i => is_Some (dict_get d i)) l2)) as E.
  { unfold rename_list. induction l2 as [|x l IH]; [done|]. rewrite fmap_cons, !filter_cons. rewrite IH.
    pose proof (rename_dict_get f g x d Hf) as Ex.
    destruct (decide (is_Some (dict_get d x))) as [Hx|Hx].
    - rewrite decide_True by (by rewrite Ex). done.
    - rewrite decide_False by (by rewrite Ex). done. }
  rewrite E. destruct b; apply mapR_fmap_eq; intros x _; by rewrite (rename_dict_get f g).
Qed.
Lemma rename_listmap_fill f g l1 l2 k : relabelling f g -> listmap_fill (rename_list f l1) (rename_list f l2) k = listmap_fill l1 l2 k.
Proof.
  intros Hf. unfold listmap_fill. rewrite rename_list_length, (rename_list1map f g) by done. set (d := list1map l1).
  generalize ((-1)%Z, replicate (length l2) k, @nil nat) as st. intros st.
  assert (fold_left (listmap_fill_step (rename_dict f d)) (rename_list f l2) st = fold_left (listmap_fill_step d) l2 st) as ->; [|done].
  revert st. unfold rename_list. induction l2 as [|x l IH]; intros st; [done|]. cbn [fmap list_fmap fold_left].
  change (list_fmap lab lab f l) with (f <$> l).
  assert (listmap_fill_step (rename_dict f d) st (f x) = listmap_fill_step d st x) as ->; [|apply IH].
  unfold listmap_fill_step. destruct st as [[i index] miss]. by rewrite (rename_dict_get f g).
Qed.
Lemma rename_list2index f g l : relabelling f g -> list2index (rename_list f l) = (fun p => (p.1, rename_list f p.2)) <$> list2index l.
Proof.
  intros Hf. unfold list2index. rewrite (rename_sorted_set f g) by done. destruct (sorted_set l) as [u|e]; [|done]. cbn [mbind res_bind fmap res_fmap].
  rewrite rename_list_length, (rename_dict_zip f g) by done.
  change (rename_list f l) with (f <$> l). rewrite (mapR_fmap_eq f _ (fun x => of_opt KeyError (dict_get (dict_zip u (seq 0 (length u))) x))).
  2: { intros x _. by rewrite (rename_dict_get f g). }
  by destruct (mapR _ l).
Qed.

(** Parts of methods. *)
Lemma rename_py_get f l z : py_get (rename_list f l) z = f <$> py_get l z.
Proof. unfold py_get. rewrite rename_list_length. destruct (py_index (length l) z) as [i|]; [|done]. cbn. apply rename_list_lookup. Qed.
Lemma rename_gets f l zs : mapM (py_get (rename_list f l)) zs = rename_list f <$> mapM (py_get l) zs.
Proof. apply (mapM_fmap_out f). intros z _. apply rename_py_get. Qed.
Lemma rename_lookups f l ps : mapM (rename_list f l !!.) ps = rename_list f <$> mapM (l !!.) ps.
Proof. apply (mapM_fmap_out f). intros z _. apply rename_list_lookup. Qed.
Lemma rename_slice f s l : py_slice s (rename_list f l) = rename_list f <$> py_slice s l.
Proof.
  unfold py_slice. rewrite rename_list_length. destruct (slice_positions s (length l)) as [ps|e]; [|done]. cbn [mbind res_bind].
  rewrite rename_lookups. by destruct (mapM (l !!.) ps).
Qed.
Lemma rename_py_axis f y a : py_axis (relabelled f y) a = py_axis y a.
Proof. unfold py_axis. cbn [relabelled llabel]. by rewrite rename_lists_length. Qed.
Lemma rename_axis_label f y ax : axis_label (relabelled f y) ax = rename_list f <$> axis_label y ax.
Proof. unfold axis_label. cbn [relabelled llabel]. rewrite rename_lists_lookup. by destruct (llabel y !! ax). Qed.
Lemma rename_check_axes f g sh L : relabelling f g -> check_axes sh (rename_lists f L) = check_axes sh L.
Proof.
  intros Hf. revert L. induction sh as [|n sh IH]; intros [|l L]; try done.
  transitivity (_ ← check_axis n (rename_list f l); check_axes sh (rename_lists f L)); [done|]. cbn [check_axes]. rewrite IH. unfold check_axis.
  by rewrite rename_list_length, (rename_nodup f g).
Qed.
Lemma rename_make f g x L : relabelling f g -> make x (Some (rename_lists f L)) = relabelled f <$> make x (Some L).
Proof.
  intros Hf. unfold make. rewrite rename_lists_length, (rename_check_axes f g) by done.
  destruct (decide (nd_ndim x <> length L)); [done|]. destruct (decide (nd_ndim x = 0)); [done|]. by destruct (check_axes _ L).
Qed.
Lemma rename_empty f : relabelled f empty_larry = empty_larry.
Proof. done. Qed.
Lemma rename_labelindex f g y name axis exact : relabelling f g -> labelindex (relabelled f y) (f name) axis exact = labelindex y name axis exact.
Proof.
  intros Hf. unfold labelindex. destruct axis as [axis|]; [|done]. cbn [of_opt mbind res_bind].
  change (lndim (relabelled f y)) with (lndim y). destruct (decide _); [done|].
  rewrite rename_py_axis. destruct (py_axis y axis) as [ax|]; [|done]. cbn [mbind res_bind]. rewrite rename_axis_label.
  destruct (axis_label y ax) as [l|]; [|done]. cbn [fmap res_fmap mbind res_bind]. rewrite (rename_index_of f g) by done.
  destruct (index_of name l); [done|]. destruct exact; [done|].
  assert (forall n, positions_from n (fun z => lab_leR z (f name)) (rename_list f l) = positions_from n (fun z => lab_leR z name) l) as E.
  { unfold rename_list. clear -Hf. induction l as [|x l IH]; intros n; [done|]. cbn. rewrite (rename_leR f g) by done.
    destruct (lab_leR x name); [|done]. cbn. change (list_fmap lab lab f l) with (f <$> l). by rewrite IH. }
  unfold positions. by rewrite E.
Qed.

Lemma rl_larr f y : larr (relabelled f y) = larr y. Proof. done. Qed.
Lemma rl_ldtype f y : ldtype (relabelled f y) = ldtype y. Proof. done. Qed.
Lemma rl_lshape f y : lshape (relabelled f y) = lshape y. Proof. done. Qed.
Lemma rl_lndim f y : lndim (relabelled f y) = lndim y. Proof. done. Qed.
Lemma rl_lsize f y : lsize (relabelled f y) = lsize y. Proof. done. Qed.
Lemma rl_lx f y : lx (relabelled f y) = lx y. Proof. done. Qed.
Lemma rl_llabel f y : llabel (relabelled f y) = rename_lists f (llabel y). Proof. done. Qed.
Lemma rl_copy f y : larry_copy (relabelled f y) = relabelled f (larry_copy y). Proof. done. Qed.
Lemma rl_larry f x L : relabelled f (Larry x L) = Larry x (rename_lists f L). Proof. done. Qed.

Ltac rl_rw :=
  first
    [ rewrite rl_larr | rewrite rl_ldtype | rewrite rl_lshape | rewrite rl_lndim | rewrite rl_lsize | rewrite rl_lx | rewrite rl_llabel
    | rewrite rename_py_axis | rewrite rename_axis_label | rewrite rename_list_length | rewrite rename_lists_length
    | rewrite rename_lists_lookup | rewrite rename_list_lookup | rewrite rename_gets | rewrite rename_lookups | rewrite rename_slice
    | rewrite rename_shape
    | match goal with Hf : relabelling ?f ?g |- _ =>
        first
          [ rewrite (rename_nodup f g _ Hf) | rewrite (rename_index_of f g _ _ Hf) | rewrite (rename_labelindex f g _ _ _ _ Hf)
          | rewrite (rename_listmap f g _ _ _ Hf) | rewrite (rename_listmap_fill f g _ _ _ Hf) | rewrite (rename_sorted f g _ Hf)
          | rewrite (rename_sorted_set f g _ Hf) | rewrite (rename_make f g _ _ Hf) ]
      end ].
Ltac rl_case e :=
  lazymatch e with
  | context [match _ with _ => _ end] => fail
  | context [@mbind res _ _ _ _ _] => fail
  | context [@fmap _ _ _ _ _ _] => fail
  | context [of_opt _ _] => fail
  | _ => destruct e eqn:?
  end.
Ltac rl_step :=
  first
    [ progress cbn [mbind res_bind fmap res_fmap of_opt option_fmap option_map] | rl_rw
    | match goal with
      | |- context [of_opt _ ?e] => rl_case e
      | |- context [@mbind res _ _ _ _ ?e] => rl_case e
      | |- context [@fmap res _ _ _ _ ?e] => rl_case e
      | |- context [match ?e with _ => _ end] => rl_case e
      end ].
Ltac rl_end :=
  cbn [mbind res_bind fmap res_fmap of_opt option_fmap option_map];
  rewrite ?rl_larry, ?rename_lists_insert, ?rename_lists_remove, ?rename_lists_insert_at, ?rename_lists_reverse, ?rename_list_reverse;
  try done.
Ltac rl := repeat rl_step; rl_end.

Definition rl_out (f : lab -> lab) (o : out) : out := match o with OLar z => OLar (relabelled f z) | OVal v => OVal v end.
Definition rl_gres (f : lab -> lab) (o : gres) : gres := match o with GLar z => GLar (relabelled f z) | _ => o end.

Lemma rename_tuple_index f g y label : relabelling f g -> label_tuple_index (relabelled f y) (rename_list f label) = label_tuple_index y label.
Proof.
  intros Hf. unfold label_tuple_index. rewrite rename_list_length, rl_lndim. destruct (decide _); [done|].
  generalize (seq 0 (lndim y)) as s. intros s. induction s as [|i s IH]; [done|]. cbn [mapR]. rewrite IH. rewrite rename_list_lookup.
  destruct (label !! i) as [x|]; [|done]. cbn [fmap option_fmap option_map of_opt mbind res_bind]. by rewrite (rename_labelindex f g).
Qed.
Lemma rename_get f g y label : relabelling f g -> larry_get (relabelled f y) (rename_list f label) = larry_get y label.
Proof. intros Hf. unfold larry_get. by rewrite (rename_tuple_index f g). Qed.
Lemma rename_set f g y label v : relabelling f g -> larry_set (relabelled f y) (rename_list f label) v = relabelled f <$> larry_set y label v.
Proof. intros Hf. unfold larry_set. rewrite (rename_tuple_index f g) by done. rl. Qed.
Lemma rename_fill f y v : larry_fill (relabelled f y) v = relabelled f <$> larry_fill y v.
Proof. unfold larry_fill. rl. Qed.
Lemma rename_getlabel f y a : getlabel (relabelled f y) a = rename_list f <$> getlabel y a.
Proof. unfold getlabel. rl. Qed.
Lemma rename_maplabel f g y func axis :
  relabelling f g -> maplabel (relabelled f y) (fun x => f (func (g x))) axis = relabelled f <$> maplabel y func axis.
Proof.
  intros Hf. assert (forall l, map_axis (fun x => f (func (g x))) (rename_list f l) = rename_list f (map_axis func l)) as E.
  { intros l. unfold map_axis, rename_list. rewrite <-!list_fmap_compose. apply list_fmap_ext. intros ? x _. simpl. by rewrite (rl_inverse f g Hf). }
  unfold maplabel. destruct axis as [a|].
  - rl. by rewrite E.
  - rl. f_equal. f_equal. unfold rename_lists. rewrite <-!list_fmap_compose. apply list_fmap_ext. intros ? l _. apply E.
Qed.
Lemma rename_take f g y ids axis : relabelling f g -> larry_take (relabelled f y) ids axis = relabelled f <$> larry_take y ids axis.
Proof. intros Hf. unfold larry_take. rl. Qed.
Lemma rename_test f g op z : relabelling f g -> label_test (rename_op f op) (f z) = label_test op z.
Proof.
  intros Hf. destruct op; cbn [rename_op label_test]; try (by apply (rename_leR f g)); try (by apply (rename_ltR f g)); f_equal; apply bool_decide_iff.
  - by apply (rename_eq f g).
  - by rewrite (rename_eq f g).
  - by apply (rename_list_elem f g).
  - by rewrite (rename_list_elem f g).
Qed.
Lemma rename_positions f (k k' : lab -> res bool) l : (forall x, k (f x) = k' x) -> positions k (rename_list f l) = positions k' l.
Proof.
  intros Hk. unfold positions. generalize 0 as n. unfold rename_list. induction l as [|x l IH]; intros n; [done|]. cbn. rewrite Hk.
  destruct (k' x); [|done]. cbn. change (list_fmap lab lab f l) with (f <$> l). by rewrite IH.
Qed.
Lemma rename_keep_label f g y op axis : relabelling f g -> keep_label (relabelled f y) (rename_op f op) axis = relabelled f <$> keep_label y op axis.
Proof.
  intros Hf. unfold keep_label. destruct axis as [a|]; [|done]. cbn [of_opt mbind res_bind]. rewrite rl_lndim. destruct (decide _); [done|].
  rewrite rename_py_axis. destruct (py_axis y a) as [ax|]; [|done]. cbn [mbind res_bind]. rewrite rename_axis_label.
  destruct (axis_label y ax) as [l|]; [|done]. cbn [fmap res_fmap mbind res_bind].
  rewrite (rename_positions f _ (label_test op)) by (intros x; by apply (rename_test f g)). rl.
Qed.
Lemma rename_pull f g y name axis : relabelling f g -> pull (relabelled f y) (f name) axis = rl_out f <$> pull y name axis.
Proof.
  intros Hf. unfold pull. destruct axis as [a|]; [|done]. cbn [of_opt mbind res_bind]. rewrite rename_py_axis. destruct (py_axis y a) as [ax|]; [|done].
  cbn [mbind res_bind]. rewrite rl_llabel, <-rename_lists_remove. rl.
Qed.
Lemma rename_lag f y n axis : lag (relabelled f y) n axis = relabelled f <$> lag y n axis.
Proof. unfold lag. rl. Qed.
Lemma rename_flip_one f y a : flip_one (relabelled f y) a = relabelled f <$> flip_one y a.
Proof. unfold flip_one. rl. Qed.
Lemma rename_flipaxis f y axis : flipaxis (relabelled f y) axis = relabelled f <$> flipaxis y axis.
Proof. unfold flipaxis. change (axes_of (relabelled f y) axis) with (axes_of y axis). apply foldM_rename. intros s x. apply rename_flip_one. Qed.
Lemma rename_T f y : larry_T (relabelled f y) = relabelled f <$> larry_T y.
Proof. unfold larry_T. rl. Qed.
Lemma rename_swap_at f i j L : swap_at i j (rename_lists f L) = rename_lists f <$> swap_at i j L.
Proof.
  unfold swap_at. rewrite !rename_lists_lookup. destruct (L !! i) as [a|]; [|done]. destruct (L !! j) as [b|]; [|done]. cbn.
  by rewrite !rename_lists_insert.
Qed.
Lemma rename_swapaxes f y a b : swapaxes (relabelled f y) a b = relabelled f <$> swapaxes y a b.
Proof.
  unfold swapaxes. rewrite !rename_py_axis. destruct (py_axis y a) as [i|]; [|done]. cbn [mbind res_bind]. destruct (py_axis y b) as [j|]; [|done].
  cbn [mbind res_bind]. rewrite rl_llabel, rename_swap_at. rl.
Qed.
Lemma rename_squeeze f y : squeeze (relabelled f y) = relabelled f (squeeze y).
Proof.
  unfold squeeze. rewrite rl_larry. f_equal. unfold squeeze_label. rewrite rl_llabel, rl_lshape. generalize (lshape y) (llabel y). intros sh L.
  revert L. induction sh as [|n sh IH]; intros [|l L]; try done. unfold rename_lists. rewrite fmap_cons. cbn [zip zip_with].
  rewrite !filter_cons. destruct (decide _) as [Hn|Hn].
  - cbn. f_equal. apply IH.
  - apply IH.
Qed.
Lemma rename_insertaxis f g y axis l : relabelling f g -> insertaxis (relabelled f y) axis (f l) = relabelled f <$> insertaxis y axis l.
Proof.
  intros Hf. unfold insertaxis. destruct axis as [a|]; [|done]. cbn [of_opt mbind res_bind]. rewrite rl_larr, rl_ldtype, rl_llabel, rename_lists_length.
  change [f l] with (rename_list f [l]). by rewrite <-rename_lists_insert_at, (rename_make f g).
Qed.
Lemma rename_py_max f g l : relabelling f g -> py_max (rename_list f l) = f <$> py_max l.
Proof.
  intros Hf. destruct l as [|x l]; [done|]. cbn. unfold rename_list. revert x. induction l as [|y l IH]; intros x; [done|]. cbn.
  rewrite (rename_ltR f g) by done. destruct (lab_ltR x y) as [[]|]; cbn; [apply IH|apply IH|done].
Qed.
Lemma rename_py_min f g l : relabelling f g -> py_min (rename_list f l) = f <$> py_min l.
Proof.
  intros Hf. destruct l as [|x l]; [done|]. cbn. unfold rename_list. revert x. induction l as [|y l IH]; intros x; [done|]. cbn.
  rewrite (rename_ltR f g) by done. destruct (lab_ltR y x) as [[]|]; cbn; [apply IH|apply IH|done].
Qed.
Lemma rename_mapR_lists f (k : list lab -> res lab) L : (forall l, k (rename_list f l) = f <$> k l) -> mapR k (rename_lists f L) = rename_list f <$> mapR k L.
Proof.
  intros Hk. unfold rename_lists. induction L as [|l L IH]; [done|]. cbn. rewrite Hk. destruct (k l); [|done]. cbn.
  change (list_fmap _ _ (rename_list f) L) with (rename_list f <$> L). rewrite IH. by destruct (mapR k L).
Qed.
Lemma rename_maxlabel f g y axis : relabelling f g -> maxlabel (relabelled f y) axis = f <$> maxlabel y axis.
Proof.
  intros Hf. unfold maxlabel. destruct axis as [a|].
  - rewrite rename_py_axis. destruct (py_axis y a) as [ax|]; [|done]. cbn [mbind res_bind]. rewrite rename_axis_label.
    destruct (axis_label y ax) as [l|]; [|done]. cbn. by apply (rename_py_max f g).
  - rewrite rl_llabel, rename_mapR_lists by (intros l; by apply (rename_py_max f g)). destruct (mapR py_max (llabel y)) as [ms|]; [|done]. cbn.
    by apply (rename_py_max f g).
Qed.
Lemma rename_minlabel f g y axis : relabelling f g -> minlabel (relabelled f y) axis = f <$> minlabel y axis.
Proof.
  intros Hf. unfold minlabel. destruct axis as [a|].
  - rewrite rename_py_axis. destruct (py_axis y a) as [ax|]; [|done]. cbn [mbind res_bind]. rewrite rename_axis_label.
    destruct (axis_label y ax) as [l|]; [|done]. cbn. by apply (rename_py_min f g).
  - rewrite rl_llabel, rename_mapR_lists by (intros l; by apply (rename_py_min f g)). destruct (mapR py_min (llabel y)) as [ms|]; [|done]. cbn.
    by apply (rename_py_min f g).
Qed.
