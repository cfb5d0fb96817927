(** Programs on larrys with other labels. *)
From Verif Require Import RelabelMain.

Lemma rename_nth f env i : nth_larry (relabelled f <$> env) i = relabelled f <$> nth_larry env i.
Proof. unfold nth_larry. rewrite list_lookup_fmap. by destruct (env !! i). Qed.
Definition rl_results (f : lab -> lab) (r : option (nat * larry) * list larry) : option (nat * larry) * list larry :=
  ((fun p : nat * larry => (p.1, relabelled f p.2)) <$> r.1, relabelled f <$> r.2).
Lemma rename_new f (r r' : res larry) : r = relabelled f <$> r' -> new r = rl_results f <$> new r'.
Proof. intros ->. by destruct r'. Qed.
Lemma rename_news f (r r' : res (list larry)) : r = (fun l : list larry => relabelled f <$> l) <$> r' -> news r = rl_results f <$> news r'.
Proof. intros ->. by destruct r'. Qed.
Lemma rename_inplace f i (r r' : res larry) : r = relabelled f <$> r' -> inplace i r = rl_results f <$> inplace i r'.
Proof. intros ->. by destruct r'. Qed.
Lemma rename_with1 {A} f (h : A -> A) env i (F F' : larry -> res A) :
  (forall y, F (relabelled f y) = h <$> F' y) -> with1 (relabelled f <$> env) i F = h <$> with1 env i F'.
Proof. intros H. unfold with1. rewrite rename_nth. destruct (nth_larry env i); [|done]. apply H. Qed.
Lemma rename_with2 {A} f (h : A -> A) env i j (F F' : larry -> larry -> res A) :
  (forall y z, F (relabelled f y) (relabelled f z) = h <$> F' y z) -> with2 (relabelled f <$> env) i j F = h <$> with2 env i j F'.
Proof. intros H. unfold with2. rewrite !rename_nth. destruct (nth_larry env i); [|done]. cbn [fmap res_fmap mbind res_bind]. destruct (nth_larry env j); [|done]. apply H. Qed.
Lemma rename_outs f (r r' : res out) : r = rl_out f <$> r' ->
  (o ← r; Ok (out_larrys o)) = (fun l : list larry => relabelled f <$> l) <$> (o ← r'; Ok (out_larrys o)).
Proof. intros ->. by destruct r' as [[]|]. Qed.
Lemma rename_gress f (r r' : res gres) : r = rl_gres f <$> r' ->
  (o ← r; Ok (gres_larrys o)) = (fun l : list larry => relabelled f <$> l) <$> (o ← r'; Ok (gres_larrys o)).
Proof. intros ->. by destruct r' as [[]|]. Qed.
Lemma rename_pairs f (r r' : res (larry * larry)) : r = rl_pair f <$> r' ->
  (p ← r; Ok [p.1; p.2]) = (fun l : list larry => relabelled f <$> l) <$> (p ← r'; Ok [p.1; p.2]).
Proof. intros ->. by destruct r' as [[]|]. Qed.
Lemma rename_nths f env is :
  mapR (nth_larry (relabelled f <$> env)) is = (fun l : list larry => relabelled f <$> l) <$> mapR (nth_larry env) is.
Proof. apply mapR_fmap_out. intros i _. apply rename_nth. Qed.

Lemma rename_keep f y (r : res nda) : (x ← r; Ok (Larry x (llabel (relabelled f y)))) = relabelled f <$> (x ← r; Ok (Larry x (llabel y))).
Proof. by destruct r. Qed.
Lemma rename_nan_replace f y v : nan_replace (relabelled f y) v = relabelled f <$> nan_replace y v.
Proof. unfold nan_replace. rewrite rl_ldtype. destruct (ldtype y); try done; by destruct (to_num v). Qed.
Lemma rename_abs f y : larry_abs (relabelled f y) = relabelled f <$> larry_abs y.
Proof. unfold larry_abs. rewrite rl_ldtype. by destruct (ldtype y). Qed.
Lemma rename_sign f y : larry_sign (relabelled f y) = relabelled f <$> larry_sign y.
Proof. unfold larry_sign. rewrite rl_ldtype. by destruct (ldtype y). Qed.
Lemma rename_invert f y : larry_invert (relabelled f y) = relabelled f <$> larry_invert y.
Proof. unfold larry_invert. rewrite rl_ldtype. by destruct (ldtype y). Qed.
Lemma rename_move_median f layout y w axis method : larry_move_median layout (relabelled f y) w axis method = relabelled f <$> larry_move_median layout y w axis method.
Proof. unfold larry_move_median. rewrite rl_lx. destruct (check_numeric (lx y)); [|done]. apply rename_keep. Qed.
Lemma rename_move_ranking f layout y w axis method : larry_move_ranking layout (relabelled f y) w axis method = relabelled f <$> larry_move_ranking layout y w axis method.
Proof. unfold larry_move_ranking. rewrite rl_lx. destruct (check_numeric (lx y)); [|done]. apply rename_keep. Qed.
Lemma rename_make_dtype f g x L dt : relabelling f g -> make_dtype x (Some (rename_lists f L)) dt = relabelled f <$> make_dtype x (Some L) dt.
Proof. intros Hf. unfold make_dtype. match goal with |- ?e ≫= _ = _ => destruct e end; [|done]. by apply (rename_make f g). Qed.
Lemma rename_ids f (L : list (option (list lab))) :
  mapM (fun o => o) ((fun o : option (list lab) => rename_list f <$> o) <$> L) = rename_lists f <$> mapM (fun o => o) L.
Proof.
  induction L as [|[l|] L IH]; [done| |done]. rewrite fmap_cons. cbn [mapM fmap option_fmap option_map mbind option_bind].
  change (list_fmap _ _ _ L) with ((fun o : option (list lab) => rename_list f <$> o) <$> L) in *. rewrite IH. by destruct (mapM _ L).
Qed.
Lemma rename_binaryop_larry f g F y z j cast m1 m2 :
  relabelling f g ->
  (p ← binaryop F (relabelled f y) (relabelled f z) j cast m1 m2; label ← of_opt NotImplementedError (mapM (fun o => o) p.2); Ok (Larry p.1 label)) =
  relabelled f <$> (p ← binaryop F y z j cast m1 m2; label ← of_opt NotImplementedError (mapM (fun o => o) p.2); Ok (Larry p.1 label)).
Proof.
  intros Hf. rewrite (rename_binaryop f g) by done. destruct (binaryop F y z j cast m1 m2) as [[x L]|]; [|done].
  cbn [fmap res_fmap mbind res_bind fst snd]. rewrite rename_ids. by destruct (mapM (fun o => o) L).
Qed.

Ltac rl_with :=
  lazymatch goal with
  | |- with1 _ _ _ = _ => apply rename_with1; intros ?y
  | |- with2 _ _ _ _ = _ => apply rename_with2; intros ?y ?z
  end.
Lemma rename_results f g env c :
  relabelling f g -> label_blind c -> results (relabelled f <$> env) (rename_call f g c) = rl_results f <$> results env c.
Proof.
  intros Hf Hc.
  destruct c; cbn [results rename_call] in *; try done;
    try (first [apply rename_new | apply rename_inplace]; rl_with;
      first [ apply rename_keep | done | solve [eauto using rename_set, rename_fill, rename_take, rename_keep_label, rename_lag, rename_flipaxis, rename_T,
        rename_swapaxes, rename_insertaxis, rename_morph, rename_morph_like, rename_sortaxis, rename_merge, rename_nan_replace,
        rename_binary, rename_binary_arr, rename_binary_scalar, rename_rarith_arr, rename_rarith_scalar, rename_neg, rename_abs, rename_sign, rename_invert,
        rename_cum, rename_clip, rename_vacuum, rename_cut_missing, rename_push, rename_move_median, rename_move_ranking, rename_group,
        rename_setitem, rename_setmask, rename_lix_set, rename_shuffle, rename_flatten, rename_binaryop_larry, rename_panel, rename_cov, rename_sortby,
        rename_ufunc, rename_power, rename_keep_x, rename_maplabel] ]);
    try (apply rename_news; rl_with;
      first [apply rename_outs | apply rename_gress | apply rename_pairs];
      solve [eauto using rename_pull, rename_compare, rename_compare_arr, rename_compare_scalar, rename_reduce, rename_std, rename_prod, rename_lastrank,
        rename_getitem, rename_lix_get, rename_align, rename_split, rename_geometric, rename_decay]).
  - apply rename_new. destruct label as [L|]; [|done]. by apply (rename_make f g).
  - apply rename_new, rename_with1. intros y. cbn. by rewrite rename_squeeze.
  - apply rename_new. by apply (rename_fromlist f g).
  - apply rename_new. by apply (rename_fromtuples f g).
  - apply rename_new. by apply (rename_fromdict f g).
  - apply rename_news. rewrite rename_nths. destruct (mapR (nth_larry env) is); [|done]. by apply (rename_align_axis f g).
  - apply rename_new. destruct label as [L|]; [|done]. by apply (rename_lrange f g).
  - apply rename_new. destruct label as [L|]; [|done]. by apply (rename_new_empty f g).
  - apply rename_new. destruct label as [L|]; [|done]. by apply (rename_fill_new f g).
  - apply rename_news, rename_outs. destruct label as [L|]; [by apply (rename_rand f g)|]. destruct Hc as [?| ->]; [done|]. unfold larry_rand. cbn. by destruct (of_opt _ _).
  - apply rename_new. destruct label as [L|]; [|done]. by apply (rename_make_dtype f g).
Qed.
Lemma rename_exec f g env c :
  relabelling f g -> label_blind c -> exec (relabelled f <$> env) (rename_call f g c) = (fun e : list larry => relabelled f <$> e) <$> exec env c.
Proof.
  intros Hf Hc. unfold exec. rewrite (rename_results f g) by done. destruct (results env c) as [[o zs]|]; [|done]. cbn. f_equal.
  rewrite fmap_app. f_equal. destruct o as [[i z]|]; [|done]. cbn. by rewrite list_fmap_insert.
Qed.
Lemma rename_run f g p : forall env,
  relabelling f g -> Forall label_blind p ->
  run (relabelled f <$> env) (rename_call f g <$> p) = (fun e : list larry => relabelled f <$> e) <$> run env p.
Proof.
  unfold run. induction p as [|c p IH]; intros env Hf Hp; [done|]. apply Forall_cons in Hp as [Hc Hp]. rewrite fmap_cons. cbn [foldM].
  rewrite (rename_exec f g) by done. destruct (exec env c) as [env'|]; [|done]. cbn [fmap res_fmap mbind res_bind]. by apply IH.
Qed.
