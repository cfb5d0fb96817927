(** Methods of relabelled larrys that put labels together. *)
From Verif Require Export RelabelLarry.

Lemma rename_morph f g y l a : relabelling f g -> morph (relabelled f y) (rename_list f l) a = relabelled f <$> morph y l a.
Proof.
  intros Hf. unfold morph. rewrite rl_lndim. destruct (decide _); [done|]. rewrite rename_py_axis. destruct (py_axis y a) as [ax|]; [|done].
  cbn [mbind res_bind]. rewrite rename_axis_label. destruct (axis_label y ax) as [old|]; [|done]. cbn [fmap res_fmap mbind res_bind].
  destruct (decide (old = l)) as [->|Hn].
  { by rewrite decide_True. }
  rewrite decide_False by (intros E; by apply (rename_list_inj f g Hf) in E). rewrite (rename_listmap_fill f g), (rename_nodup f g) by done.
  destruct (listmap_fill old l 0) as [idx miss]. rewrite rl_lshape, rl_ldtype, rl_lx, rl_llabel.
  match goal with |- ?e ≫= _ = _ => destruct e as [x|] end; [|done]. cbn [mbind res_bind]. destruct (py_nodup l); [|done]. by rl_end.
Qed.
Lemma foldM_rename_in {S X} (h : S -> S) (k k' : S -> X -> res S) s l :
  (forall s x, x ∈ l -> k (h s) x = h <$> k' s x) -> foldM k (h s) l = h <$> foldM k' s l.
Proof.
  revert s. induction l as [|x l IH]; intros s Hk; [done|]. cbn. rewrite Hk by (by left). destruct (k' s x); [|done]. apply IH.
  intros s' z Hz. apply Hk. by right.
Qed.
Lemma rename_morph_like f g y z : relabelling f g -> morph_like (relabelled f y) (relabelled f z) = relabelled f <$> morph_like y z.
Proof.
  intros Hf. unfold morph_like. rewrite !rl_lndim. destruct (decide _); [done|]. apply foldM_rename. intros s i. rewrite rename_getlabel.
  destruct (getlabel z (Z.of_nat i)) as [l|]; [|done]. cbn [mbind res_bind fmap res_fmap]. by apply (rename_morph f g).
Qed.
Lemma rename_sorted_rev f g l : relabelling f g -> py_sorted_rev (rename_list f l) = rename_list f <$> py_sorted_rev l.
Proof.
  intros Hf. unfold py_sorted_rev. rewrite (rename_sorted f g) by done. destruct (py_sorted l); [|done]. cbn. by rewrite rename_list_reverse.
Qed.
Lemma rename_sortaxis f g y axis rev : relabelling f g -> sortaxis (relabelled f y) axis rev = relabelled f <$> sortaxis y axis rev.
Proof.
  intros Hf. unfold sortaxis. change (axes_of (relabelled f y) axis) with (axes_of y axis). apply foldM_rename. intros s a.
  unfold sortaxis_step. rewrite rl_lshape. destruct (py_get (lshape y) a) as [n|]; [|done]. cbn [of_opt mbind res_bind]. destruct (decide _); [|done].
  rewrite rename_py_axis. destruct (py_axis y a) as [ax|]; [|done]. cbn [mbind res_bind]. rewrite rename_axis_label.
  destruct (axis_label y ax) as [ls|]; [|done]. cbn [fmap res_fmap mbind res_bind].
  rewrite (rename_sorted_rev f g), (rename_sorted f g) by done.
  destruct rev.
  - destruct (py_sorted_rev ls); [|done]. by apply (rename_morph f g).
  - destruct (py_sorted ls); [|done]. by apply (rename_morph f g).
Qed.

(** merge. *)
Definition rl_pair (f : lab -> lab) (p : larry * larry) : larry * larry := (relabelled f p.1, relabelled f p.2).
Lemma rename_merge_step f g st ax : relabelling f g -> merge_align_step (rl_pair f st) ax = rl_pair f <$> merge_align_step st ax.
Proof.
  intros Hf. destruct st as [y z]. unfold merge_align_step, rl_pair. cbn [fst snd]. rewrite !rename_axis_label.
  destruct (axis_label y ax) as [l1|]; [|done]. cbn [fmap res_fmap mbind res_bind]. destruct (axis_label z ax) as [l2|]; [|done]. cbn [fmap res_fmap mbind res_bind].
  destruct (decide (l1 = l2)) as [->|Hn].
  { by rewrite decide_True. }
  rewrite decide_False by (intros E; by apply (rename_list_inj f g Hf) in E).
  rewrite <-rename_list_app, (rename_sorted_set f g) by done. destruct (sorted_set (l1 ++ l2)) as [m|]; [|done]. cbn [fmap res_fmap mbind res_bind].
  rewrite !(rename_morph f g) by done. destruct (morph y m (Z.of_nat ax)); [|done]. cbn [fmap res_fmap mbind res_bind]. by destruct (morph z m (Z.of_nat ax)).
Qed.
Lemma rename_merge f g y z update : relabelling f g -> larry_merge (relabelled f y) (relabelled f z) update = relabelled f <$> larry_merge y z update.
Proof.
  intros Hf. unfold larry_merge. rewrite !rl_lndim. destruct (decide _); [done|].
  change (relabelled f y, relabelled f z) with (rl_pair f (y, z)). rewrite (foldM_rename (rl_pair f) _ merge_align_step) by (intros s x; by apply (rename_merge_step f g)).
  destruct (foldM merge_align_step (y, z) (seq 0 (lndim y))) as [[l1 l2]|]; [|done]. cbn [fmap res_fmap mbind res_bind rl_pair fst snd].
  rewrite !rl_ldtype, !rl_lx. repeat (match goal with |- context [if ?b then _ else _] => destruct b end; try done).
  destruct (putmask_arr _ _ _); [|done]. by rl_end.
Qed.

(** Operators. *)
Definition rl_triple (f : lab -> lab) (p : nda * nda * list (list lab)) : nda * nda * list (list lab) := (p.1, rename_lists f p.2).
Lemma rename_inter f g l1 l2 : relabelling f g -> sorted_inter (rename_list f l1) (rename_list f l2) = rename_list f <$> sorted_inter l1 l2.
Proof. intros Hf. unfold sorted_inter. by rewrite (rename_filter_in f g), (rename_remove_dups f g), (rename_sorted f g). Qed.
Lemma rename_union f g l1 l2 : relabelling f g -> sorted_union (rename_list f l1) (rename_list f l2) = rename_list f <$> sorted_union l1 l2.
Proof. intros Hf. unfold sorted_union. by rewrite <-rename_list_app, (rename_sorted_set f g). Qed.
Lemma rename_op_align_step f g L1 L2 st ax :
  relabelling f g -> op_align_step (rename_lists f L1) (rename_lists f L2) (rl_triple f st) ax = rl_triple f <$> op_align_step L1 L2 st ax.
Proof.
  intros Hf. destruct st as [[x y] L]. unfold op_align_step, rl_triple. cbn [fst snd]. rewrite !rename_lists_lookup.
  destruct (L1 !! ax) as [l1|]; [|done]. destruct (L2 !! ax) as [l2|]; [|done]. cbn [fmap option_fmap option_map of_opt mbind res_bind].
  destruct (decide (l1 = l2)) as [->|Hn].
  { rewrite decide_True by done. cbn [fmap res_fmap mbind res_bind fst snd]. by rewrite rename_lists_app. }
  rewrite decide_False by (intros E; by apply (rename_list_inj f g Hf) in E).
  rewrite (rename_inter f g) by done. destruct (sorted_inter l1 l2) as [m|]; [|done]. cbn [fmap res_fmap mbind res_bind].
  rewrite !(rename_listmap f g) by done. destruct (listmap l1 m false) as [ids|]; [|done]. destruct (listmap l2 m false) as [ido|]; [|done].
  cbn [fmap res_fmap mbind res_bind]. destruct (nda_take x _ ax); [|done]. cbn [mbind res_bind]. destruct (nda_take y _ ax); [|done]. cbn [fmap res_fmap mbind res_bind fst snd]. by rewrite rename_lists_app.
Qed.
Lemma rename_op_align f g y z : relabelling f g -> op_align (relabelled f y) (relabelled f z) = rl_triple f <$> op_align y z.
Proof.
  intros Hf. unfold op_align. rewrite !rl_lndim. destruct (decide _); [done|]. rewrite !rl_lx, !rl_llabel.
  change (lx y, lx z, @nil (list lab)) with (rl_triple f (lx y, lx z, [])) at 1. apply foldM_rename. intros s x. by apply (rename_op_align_step f g).
Qed.
Lemma rename_binary f g F y z :
  relabelling f g -> larry_binary F (relabelled f y) (OpLarry (relabelled f z)) = relabelled f <$> larry_binary F y (OpLarry z).
Proof.
  intros Hf. unfold larry_binary. rewrite !rl_llabel, !rl_lx. destruct (decide (llabel y = llabel z)) as [E|Hn].
  { rewrite decide_True by congruence. by destruct (F (lx y) (lx z)). }
  rewrite decide_False by (intros E; by apply (rename_lists_inj f g Hf) in E). rewrite (rename_op_align f g) by done.
  destruct (op_align y z) as [[[x x'] L]|]; [|done]. cbn. by destruct (F x x').
Qed.
Lemma rename_binary_arr f F y a : larry_binary F (relabelled f y) (OpArr a) = relabelled f <$> larry_binary F y (OpArr a).
Proof. unfold larry_binary. rl. Qed.
Lemma rename_binary_scalar f F y v : larry_binary F (relabelled f y) (OpScalar v) = relabelled f <$> larry_binary F y (OpScalar v).
Proof. unfold larry_binary. rl. Qed.
Lemma rename_neg f y : larry_neg (relabelled f y) = relabelled f <$> larry_neg y.
Proof. unfold larry_neg. rl. Qed.
Lemma rename_rarith_arr f op y a : larry_rarith op (relabelled f y) (OpArr a) = relabelled f <$> larry_rarith op y (OpArr a).
Proof.
  destruct op; cbn [larry_rarith]; unfold larry_rsub, larry_arith, larry_rdivide; rewrite ?rename_binary_arr; try done; try (rl; fail).
  destruct (larry_binary _ y _); [|done]. cbn. apply rename_neg.
Qed.
Lemma rename_rarith_scalar f op y v : larry_rarith op (relabelled f y) (OpScalar v) = relabelled f <$> larry_rarith op y (OpScalar v).
Proof.
  destruct op; cbn [larry_rarith]; unfold larry_rsub, larry_arith, larry_rdivide; rewrite ?rename_binary_scalar; try done; try (rl; fail).
  destruct (larry_binary _ y _); [|done]. cbn. apply rename_neg.
Qed.
Lemma rename_compare f g op y z :
  relabelling f g -> larry_compare op (relabelled f y) (OpLarry (relabelled f z)) = rl_out f <$> larry_compare op y (OpLarry z).
Proof.
  intros Hf. unfold larry_compare. rewrite (rename_op_align f g) by done. destruct (op_align y z) as [[[x x'] L]|]; [|done]. cbn.
  by destruct (np_compare op x x').
Qed.
Lemma rename_compare_arr f op y a : larry_compare op (relabelled f y) (OpArr a) = rl_out f <$> larry_compare op y (OpArr a).
Proof. unfold larry_compare. rewrite rl_lx. destruct (np_compare op (lx y) a) as [[]|]; done. Qed.
Lemma rename_compare_scalar f op y v : larry_compare op (relabelled f y) (OpScalar v) = rl_out f <$> larry_compare op y (OpScalar v).
Proof. unfold larry_compare. rewrite rl_lx. destruct (scalar_nda v) as [a|]; [|done]. cbn. destruct (np_compare op (lx y) a) as [[]|]; done. Qed.

(** align. *)
Definition rl_align (f : lab -> lab) (st : align_st) : align_st :=
  AlignSt (al_x1 st) (al_m1 st) (al_view1 st) (al_x2 st) (al_m2 st) (al_view2 st) ((fun o : option (list lab) => rename_list f <$> o) <$> al_label st).
Lemma rename_refill f g dt cast x m old new ax : relabelling f g -> refill dt cast x m (rename_list f old) (rename_list f new) ax = refill dt cast x m old new ax.
Proof. intros Hf. unfold refill. by rewrite (rename_listmap_fill f g). Qed.
Lemma rename_align_step f g y z cast js st ax :
  relabelling f g -> align_step (relabelled f y) (relabelled f z) cast js (rl_align f st) ax = rl_align f <$> align_step y z cast js st ax.
Proof.
  intros Hf. destruct st as [x1 m1 v1 x2 m2 v2 L]. unfold align_step, rl_align. cbn [al_x1 al_m1 al_view1 al_x2 al_m2 al_view2 al_label].
  rewrite !rl_llabel, !rename_lists_lookup, !rl_ldtype. destruct (llabel y !! ax) as [l1|]; [|done]. destruct (llabel z !! ax) as [l2|]; [|done].
  cbn [fmap option_fmap option_map of_opt mbind res_bind]. destruct (js !! ax) as [j|]; [|done]. cbn [of_opt mbind res_bind].
  assert (forall (o : option (list lab)) (K : list (option (list lab))),
    ((fun o : option (list lab) => rename_list f <$> o) <$> K ++ [o]) = ((fun o : option (list lab) => rename_list f <$> o) <$> K) ++ [rename_list f <$> o]) as Happ.
  { intros o K. by rewrite fmap_app. }
  destruct (decide (l1 = l2)) as [->|Hn].
  { destruct j; rewrite ?decide_True by done; try done; cbn; by rewrite Happ. }
  assert (rename_list f l1 <> rename_list f l2) as Hn' by (intros E; by apply (rename_list_inj f g Hf) in E).
  destruct j; rewrite ?(decide_False (P := rename_list f l1 = rename_list f l2)) by done; try done.
  - rewrite (rename_inter f g) by done. destruct (sorted_inter l1 l2) as [m|]; [|done]. cbn [fmap res_fmap mbind res_bind]. rewrite !(rename_listmap f g) by done.
    destruct (listmap l1 m false); [|done]. destruct (listmap l2 m false); [|done]. cbn [mbind res_bind]. destruct (nda_take x1 _ ax); [|done].
    cbn [mbind res_bind]. destruct (nda_take x2 _ ax); [|done]. cbn. by rewrite Happ.
  - rewrite (rename_union f g) by done. destruct (sorted_union l1 l2) as [m|]; [|done]. cbn [fmap res_fmap mbind res_bind]. rewrite !(rename_listmap_fill f g) by done.
    destruct (listmap_fill l1 m 0) as [i1 k1]. destruct (listmap_fill l2 m 0) as [i2 k2]. destruct (nda_take x1 i1 ax); [|done].
    cbn [mbind res_bind]. destruct (nda_take x2 i2 ax); [|done]. cbn [mbind res_bind]. destruct (fill_missing (ldtype y) _ _ _ _ _); [|done].
    cbn [mbind res_bind]. destruct (fill_missing (ldtype z) _ _ _ _ _); [|done]. cbn. by rewrite Happ.
  - rewrite (rename_refill f g) by done. destruct (refill _ _ _ _ _ _ _); [|done]. cbn. by rewrite Happ.
  - rewrite (rename_refill f g) by done. destruct (refill _ _ _ _ _ _ _); [|done]. cbn. by rewrite Happ.
  - cbn. by rewrite Happ.
Qed.
Lemma rename_align_raw f g y z j cast : relabelling f g -> align_raw (relabelled f y) (relabelled f z) j cast = rl_align f <$> align_raw y z j cast.
Proof.
  intros Hf. unfold align_raw. rewrite !rl_lndim, !rl_lx. destruct (decide _); [done|].
  match goal with |- ?e ≫= _ = _ => destruct e as [js|] end; [|done]. cbn [mbind res_bind].
  change (AlignSt (lx y) None true (lx z) None true []) with (rl_align f (AlignSt (lx y) None true (lx z) None true [])) at 1.
  apply foldM_rename. intros s x. by apply (rename_align_step f g).
Qed.
Lemma zip_fmap_r {A B C} (h : B -> C) (s : list A) (L : list B) : zip s (h <$> L) = (fun p : A * B => (p.1, h p.2)) <$> zip s L.
Proof. revert s. induction L as [|y L IH]; intros [|i s]; try done. cbn. f_equal. apply IH. Qed.
Lemma rename_own_label f y (L : list (option (list lab))) :
  own_label (relabelled f y) ((fun o : option (list lab) => rename_list f <$> o) <$> L) = rename_lists f <$> own_label y L.
Proof.
  unfold own_label. rewrite fmap_length, zip_fmap_r.
  rewrite (mapR_fmap_eq _ _ (fun p : nat * option (list lab) => rename_list f <$> match p.2 with None => of_opt IndexError (llabel y !! p.1) | Some l => Ok l end)).
  - apply mapR_fmap_out. done.
  - intros [i [l|]] _; cbn [fst snd fmap option_fmap option_map]; [done|]. rewrite rl_llabel, rename_lists_lookup. by destruct (llabel y !! i).
Qed.
Lemma rename_align f g y z j cast : relabelling f g -> align (relabelled f y) (relabelled f z) j cast = rl_pair f <$> align y z j cast.
Proof.
  intros Hf. unfold align. rewrite (rename_align_raw f g) by done. destruct (align_raw y z j cast) as [st|]; [|done]. cbn [fmap res_fmap mbind res_bind].
  cbn [rl_align al_label]. rewrite !rename_own_label. destruct (own_label y _); [|done]. cbn [fmap res_fmap mbind res_bind]. by destruct (own_label z _).
Qed.
Lemma rename_binaryop f g F y z j cast m1 m2 :
  relabelling f g ->
  binaryop F (relabelled f y) (relabelled f z) j cast m1 m2 =
  (fun p : nda * list (option (list lab)) => (p.1, (fun o : option (list lab) => rename_list f <$> o) <$> p.2)) <$> binaryop F y z j cast m1 m2.
Proof.
  intros Hf. unfold binaryop. rewrite (rename_align_raw f g) by done. destruct (align_raw y z j cast) as [st|]; [|done]. cbn [fmap res_fmap mbind res_bind].
  cbn [rl_align al_label al_x1 al_x2]. destruct (decide _); [done|].
  match goal with |- ?e ≫= _ = _ => destruct e as [p|] end; [|done]. cbn [mbind res_bind].
  match goal with |- ?e ≫= _ = _ => destruct e as [q|] end; [|done]. cbn [mbind res_bind]. by destruct (F q.1 q.2).
Qed.

(** align_axis. *)
Lemma rename_label_at f y a : label_at (relabelled f y) a = rename_list f <$> label_at y a.
Proof. unfold label_at. rl. Qed.
Lemma foldM_list_eq {S X Y} (h : S -> S) (p : X -> Y) (k : S -> Y -> res S) (k' : S -> X -> res S) s l :
  (forall s x, k (h s) (p x) = h <$> k' s x) -> foldM k (h s) (p <$> l) = h <$> foldM k' s l.
Proof. intros Hk. revert s. induction l as [|x l IH]; intros s; [done|]. cbn. rewrite Hk. by destruct (k' s x); [apply IH|]. Qed.
Lemma zip_rename f (s : list nat) ys : zip s (relabelled f <$> ys) = (fun p : nat * larry => (p.1, relabelled f p.2)) <$> zip s ys.
Proof. apply zip_fmap_r. Qed.
Lemma rename_align_axis_label f g ys axis j :
  relabelling f g -> align_axis_label (relabelled f <$> ys) axis j = rename_list f <$> align_axis_label ys axis j.
Proof.
  intros Hf. destruct ys as [|y ys]; [done|]. unfold align_axis_label. cbn [fmap list_fmap]. change (list_fmap _ _ (relabelled f) ys) with (relabelled f <$> ys).
  destruct (head axis) as [a0|]; [|done]. cbn [of_opt mbind res_bind]. destruct j; try done.
  - rewrite rename_label_at. destruct (label_at y a0) as [l0|]; [|done]. cbn [fmap res_fmap mbind res_bind].
    rewrite fmap_length. rewrite zip_rename, (rename_remove_dups f g) by done.
    rewrite (foldM_list_eq (rename_list f) _ _ (fun label p => a ← of_opt IndexError (axis !! p.1); l ← label_at p.2 a; Ok (filter (fun x => x ∈ l) label))).
    2: { intros s [i z]. cbn [fst snd]. destruct (axis !! i); [|done]. cbn [of_opt mbind res_bind]. rewrite rename_label_at. destruct (label_at z _); [|done].
         cbn. by rewrite (rename_filter_in f g). }
    destruct (foldM _ (remove_dups l0) _); [|done]. cbn [fmap res_fmap mbind res_bind]. by rewrite (rename_sorted f g).
  - rewrite rename_label_at. destruct (label_at y a0) as [l0|]; [|done]. cbn [fmap res_fmap mbind res_bind].
    rewrite fmap_length. rewrite zip_rename, (rename_remove_dups f g) by done.
    rewrite (foldM_list_eq (rename_list f) _ _ (fun label p => a ← of_opt IndexError (axis !! p.1); l ← label_at p.2 a; Ok (remove_dups (label ++ l)))).
    2: { intros s [i z]. cbn [fst snd]. destruct (axis !! i); [|done]. cbn [of_opt mbind res_bind]. rewrite rename_label_at. destruct (label_at z _); [|done].
         cbn. by rewrite <-rename_list_app, (rename_remove_dups f g). }
    destruct (foldM _ (remove_dups l0) _); [|done]. cbn [fmap res_fmap mbind res_bind]. by rewrite (rename_sorted f g).
  - apply rename_label_at.
  - change (relabelled f y :: (relabelled f <$> ys)) with (relabelled f <$> (y :: ys)). rewrite fmap_last. destruct (last (y :: ys)) as [z|]; [|done].
    cbn [fmap option_fmap option_map of_opt mbind res_bind]. destruct (last axis) as [an|]; [|done]. cbn [of_opt mbind res_bind]. apply rename_label_at.
Qed.
Lemma rename_align_axis f g ys axis j :
  relabelling f g -> align_axis (relabelled f <$> ys) axis j = (fun r : list larry => relabelled f <$> r) <$> align_axis ys axis j.
Proof.
  intros Hf. unfold align_axis. rewrite fmap_length, zip_rename.
  rewrite (mapR_fmap_eq _ _ (fun p : nat * larry => a ← of_opt IndexError (axis !! p.1);
    if decide (Z.of_nat (lndim p.2) <= a \/ a < - Z.of_nat (lndim p.2))%Z then Err ValueError else Ok ())) by done.
  match goal with |- ?e ≫= _ = _ => destruct e as [u|] end; [|done]. cbn [mbind res_bind].
  destruct (decide _); [done|]. rewrite (rename_align_axis_label f g) by done. destruct (align_axis_label ys axis j) as [l|]; [|done].
  cbn [fmap res_fmap mbind res_bind].
  rewrite (mapR_fmap_eq _ _ (fun p : nat * larry => relabelled f <$> (a ← of_opt IndexError (axis !! p.1); morph p.2 l a))).
  - apply mapR_fmap_out. done.
  - intros [i z] _. cbn [fst snd]. destruct (axis !! i); [|done]. cbn [of_opt mbind res_bind]. by apply (rename_morph f g).
Qed.
