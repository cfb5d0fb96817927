(** Methods that work element by element do not care about the order of the
    axes. *)
From Verif Require Export AxesFacts.

Lemma nperms_ret os dt a a' : perms os a a' -> sim (nperms os) (Ok (Nda dt a)) (Ok (Nda dt a')).
Proof. intros H. apply sim_ret. by split. Qed.

(** * Cells *)
Definition prel (os : list nat) (y y' z z' : larry) : Prop :=
  exists x x', z = Larry x (llabel y) /\ z' = Larry x' (llabel y') /\ nperms os x x'.
Definition turns (f : larry -> res larry) : Prop := forall os y y',
  valid y -> valid y' -> nperms os (lx y) (lx y') -> sim (prel os y y') (f y) (f y').
Lemma prel_ret os y y' x x' : nperms os x x' -> sim (prel os y y') (Ok (Larry x (llabel y))) (Ok (Larry x' (llabel y'))).
Proof. intros H. apply sim_ret. by exists x, x'. Qed.
Lemma prel_nda os y y' dt a a' : perms os a a' -> sim (prel os y y') (Ok (Larry (Nda dt a) (llabel y))) (Ok (Larry (Nda dt a') (llabel y'))).
Proof. intros H. by apply prel_ret. Qed.
Lemma prel_same os y y' : nperms os (lx y) (lx y') -> sim (prel os y y') (Ok y) (Ok y').
Proof. intros H. destruct y, y'. by apply prel_ret. Qed.
Lemma prel_bind os y y' (r r' : res nda) : sim (nperms os) r r' ->
  sim (prel os y y') (x ← r; Ok (Larry x (llabel y))) (x ← r'; Ok (Larry x (llabel y'))).
Proof. intros H. eapply sim_bind; [exact H|]. intros x x' Hx. by apply prel_ret. Qed.

Lemma np_neg_psim os x x' : nperms os x x' -> sim (nperms os) (np_neg x) (np_neg x').
Proof. intros [Hd Hp]. unfold np_neg. rewrite Hd. destruct (nd_dtype x); try apply sim_err; by apply nperms_ret, perms_amap. Qed.
Lemma neg_turns : turns larry_neg.
Proof. intros os y y' Hv Hv' Hp. by apply prel_bind, np_neg_psim. Qed.
Lemma abs_turns : turns larry_abs.
Proof.
  intros os y y' Hv Hv' Hp. unfold larry_abs, ldtype. rewrite (proj1 Hp).
  destruct (nd_dtype (lx y)); try apply sim_err; try (by apply prel_same); by apply prel_nda, perms_amap, Hp.
Qed.
Lemma sign_turns : turns larry_sign.
Proof.
  intros os y y' Hv Hv' Hp. unfold larry_sign, ldtype. rewrite (proj1 Hp).
  destruct (nd_dtype (lx y)); try apply sim_err; by apply prel_nda, perms_amap, Hp.
Qed.
Lemma test_turns p : turns (fun y => x ← np_test p (lx y); Ok (Larry x (llabel y))).
Proof.
  intros os y y' Hv Hv' Hp. apply prel_bind. unfold np_test. rewrite (proj1 Hp).
  destruct (nd_dtype (lx y)); try apply sim_err; by apply nperms_ret, perms_amap, Hp.
Qed.
Lemma invert_turns : turns larry_invert.
Proof.
  intros os y y' Hv Hv' Hp. unfold larry_invert, ldtype. rewrite (proj1 Hp).
  destruct (nd_dtype (lx y)); try apply sim_err; by apply prel_nda, perms_amap, Hp.
Qed.
Lemma clip_turns lo hi : turns (fun y => larry_clip y lo hi).
Proof.
  intros os y y' Hv Hv' Hp. unfold larry_clip, ldtype. rewrite (proj1 Hp).
  apply sim_bind_same. intros l _. apply sim_bind_same. intros h _. destruct (num_ltb h l); [apply sim_err|].
  destruct (nd_dtype (lx y)); try apply sim_err; [by apply prel_nda, perms_amap, Hp|].
  destruct lo; try apply sim_err. destruct hi; try apply sim_err. by apply prel_nda, perms_amap, Hp.
Qed.
Lemma nan_replace_turns v : turns (fun y => nan_replace y v).
Proof.
  intros os y y' Hv Hv' Hp. unfold nan_replace, ldtype. rewrite (proj1 Hp), !copy_eq.
  destruct (nd_dtype (lx y)); try (by apply prel_same); apply sim_bind_same; intros r _; [by apply prel_nda, perms_amap, Hp|by apply prel_same].
Qed.
Lemma ismissing_perms os x x' : nperms os x x' -> perms os (ismissing x) (ismissing x').
Proof.
  intros [Hd Hp]. unfold ismissing. rewrite Hd. destruct (missing_marker _) as [mm|]; [|by apply perms_full_like].
  destruct (val_isnan mm); by apply perms_amap.
Qed.
Lemma ismissing_turns : turns (fun y => Ok (larry_ismissing y)).
Proof. intros os y y' Hv Hv' Hp. by apply prel_nda, perms_amap, ismissing_perms. Qed.
Lemma copy_turns : turns (fun y => Ok (larry_copy y)).
Proof. intros os y y' Hv Hv' Hp. rewrite !copy_eq. by apply prel_same. Qed.

Lemma elementwise_scalar_psim os dt f x x' v dv : nperms os x x' ->
  sim (nperms os) (elementwise dt f x (Nda dv (Arr [] [v]))) (elementwise dt f x' (Nda dv (Arr [] [v]))).
Proof.
  intros [Hd Hp]. rewrite !elementwise_scalar. intros z Hz. apply bind_ok in Hz as (b & Hb & [= <-]). apply of_opt_ok in Hb.
  destruct (perms_build os _ _ _ (fun idx => u ← aget (nd_arr x') idx; f u v) _ Hp Hb) as (b' & Hb' & Hpb).
  { intros idx Hr. cbn beta. destruct Hp as (_ & _ & _ & _ & Hg). by rewrite (Hg idx Hr). }
  unfold nd_shape. rewrite Hb'. simpl. eexists. split; [done|]. by split.
Qed.
Lemma arith_turns op v : turns (fun y => larry_arith op y (OpScalar v)).
Proof.
  intros os y y' Hv Hv' Hp. cbn [larry_arith larry_binary]. apply sim_bind_same. intros a Ha. apply scalar_nda_ok in Ha as [dv ->].
  apply prel_bind. unfold np_arith. rewrite (proj1 Hp). apply sim_bind_same. intros dt _. by apply elementwise_scalar_psim.
Qed.
Lemma logic_turns op v : turns (fun y => larry_logic op y (OpScalar v)).
Proof.
  intros os y y' Hv Hv' Hp. cbn [larry_logic larry_binary]. apply sim_bind_same. intros a Ha. apply scalar_nda_ok in Ha as [dv ->].
  apply prel_bind. unfold np_logic. rewrite (proj1 Hp). apply sim_bind_same. intros dt _. by apply elementwise_scalar_psim.
Qed.
Lemma rarith_turns op v : turns (fun y => larry_rarith op y (OpScalar v)).
Proof.
  intros os y y' Hv Hv' Hp. unfold larry_rarith.
  assert (D : forall op, sim (prel os y y') (larry_rdivide op y (OpScalar v)) (larry_rdivide op y' (OpScalar v))).
  { intros op'. cbn [larry_rdivide]. apply sim_bind_same. intros a Ha. apply scalar_nda_ok in Ha as [dv ->].
    apply prel_bind. unfold np_arith. rewrite (proj1 Hp). apply sim_bind_same. intros dt _. rewrite !(elementwise_swap _ _ (Nda dv _)).
    by apply elementwise_scalar_psim. }
  destruct op; try apply D; try by apply arith_turns.
  unfold larry_rsub. eapply sim_bind; [by apply arith_turns|]. intros z z' (x & x' & -> & -> & Hx).
  unfold larry_neg. simpl. by apply prel_bind, np_neg_psim.
Qed.
Lemma np_compare_psim os op x x' v a : scalar_nda v = Ok a -> nperms os x x' -> forall r, np_compare op x a = Ok (inl r) ->
  exists r', np_compare op x' a = Ok (inl r') /\ nperms os r r'.
Proof.
  intros Ha Hp r. apply scalar_nda_ok in Ha as [dv ->]. unfold np_compare. rewrite (proj1 Hp). cbn [nd_dtype].
  assert (K : forall r, match elementwise DBool (cmp_elem op) x (Nda dv (Arr [] [v])), op with
      | Ok r, _ => Ok (inl r) | Err ValueError, CEq => Ok (inr false) | Err ValueError, CNe => Ok (inr true) | Err e, _ => Err e end = Ok (inl r) ->
    exists r', match elementwise DBool (cmp_elem op) x' (Nda dv (Arr [] [v])), op with
      | Ok r, _ => Ok (inl r) | Err ValueError, CEq => Ok (inr false) | Err ValueError, CNe => Ok (inr true) | Err e, _ => Err e end = Ok (inl r') /\ nperms os r r').
  { intros r0 H. destruct (elementwise DBool (cmp_elem op) x _) as [r1|e] eqn:E.
    - injection H as <-. destruct (elementwise_scalar_psim os DBool (cmp_elem op) x x' v dv Hp _ E) as (r' & -> & Hr). eauto.
    - destruct e; try done; destruct op; done. }
  destruct (nd_dtype x), dv; try done; try apply K; destruct op; done.
Qed.
Lemma compare_turns op v : turns (fun y => compare_to op y v).
Proof.
  intros os y y' Hv Hv' Hp z. unfold compare_to. rewrite bind_ok. intros (o & Ho & Hz).
  destruct o as [z0|]; [|done]. injection Hz as ->. unfold larry_compare in *. cbn beta zeta in *.
  apply bind_ok in Ho as (a & Ha & Ho). apply bind_ok in Ho as ([x|b] & Hx & [= <-]).
  destruct (np_compare_psim _ _ _ _ _ _ Ha Hp _ Hx) as (x' & Hx' & Hpx). rewrite Ha. cbn [mbind res_bind]. rewrite Hx'. cbn [mbind res_bind].
  eexists. split; [done|]. by exists x, x'.
Qed.
Lemma ufunc_turns f : turns (larry_ufunc f).
Proof.
  intros os y y' Hv Hv' Hp. unfold larry_ufunc, ldtype. rewrite (proj1 Hp).
  destruct (nd_dtype (lx y)); try apply sim_err; by apply prel_nda, perms_amap, Hp.
Qed.
Lemma power_turns pow q : turns (fun y => larry_power pow y q).
Proof.
  intros os y y' Hv Hv' Hp. unfold larry_power, ldtype. rewrite (proj1 Hp).
  destruct (nd_dtype (lx y)), q; try apply sim_err; try (by apply ufunc_turns).
  case_decide; [apply sim_err|]. by apply prel_nda, perms_amap, Hp.
Qed.
Lemma putmask_scalar_psim os x x' m m' v : nperms os x x' -> perms os m m' -> shape m = nd_shape x ->
  sim (nperms os) (putmask_scalar x m v) (putmask_scalar x' m' v).
Proof.
  intros [Hd Hp] Hm Hs. unfold putmask_scalar. rewrite Hd. apply sim_bind_same. intros r _. apply nperms_ret.
  by apply perms_azip.
Qed.
Lemma keep_x_turns op v : turns (fun y => keep_x y op v false).
Proof.
  intros os y y' Hv Hv' Hp z. unfold keep_x. cbn [andb]. rewrite bind_ok. intros (o & Ho & H). apply of_opt_ok in Ho as ->.
  apply bind_ok in H as (a & Ha & H). apply bind_ok in H as ([r|b] & Hr & H); [|by destruct (ldtype y)].
  destruct (np_compare_psim _ _ _ _ _ _ Ha Hp _ Hr) as (r' & Hr' & Hpr). cbn [of_opt mbind res_bind]. rewrite Ha. cbn [mbind res_bind]. rewrite Hr'. cbn [mbind res_bind].
  assert (Hsr : shape (nd_arr r) = nd_shape (lx y)).
  { apply scalar_nda_ok in Ha as [dv ->]. unfold np_compare in Hr.
    assert (E : elementwise DBool (cmp_elem o) (lx y) (Nda dv (Arr [] [v])) = Ok r).
    { destruct (elementwise DBool (cmp_elem o) (lx y) _) as [r1|e] eqn:E; cbn [nd_dtype] in Hr.
      - destruct (nd_dtype (lx y)), dv; try done; destruct o; try done; congruence.
      - destruct (nd_dtype (lx y)), dv, e, o; done. }
    rewrite elementwise_scalar in E. apply bind_ok in E as (b & Hb & [= <-]). apply of_opt_ok, build_Some in Hb. apply Hb. }
  assert (K : sim (prel os y y') (x ← blank (lx y) r; Ok (Larry x (llabel y))) (x ← blank (lx y') r'; Ok (Larry x (llabel y')))).
  { apply prel_bind. apply putmask_scalar_psim; [done|apply perms_amap, Hpr|done]. }
  specialize (K z). unfold ldtype in *. rewrite (proj1 Hp). destruct (nd_dtype (lx y)); try done; by apply K.
Qed.
Lemma astype_turns dt : turns (fun y => larry_astype y dt).
Proof.
  intros os y y' Hv Hv' Hp. apply prel_bind. intros z Hz. unfold np_astype in *. rewrite (proj1 Hp).
  apply bind_ok in Hz as (vs & Hvs & [= <-]).
  destruct (mapR_total (cast (nd_dtype (lx y)) dt) (data (nd_arr (lx y')))) as [vs' Hvs'].
  { intros v Hin. eapply perms_elems in Hin; [|apply Hp]. apply mapR_ok in Hvs.
    apply elem_of_list_lookup in Hin as [k Hk]. destruct (Forall2_lookup_l _ _ _ _ _ Hvs Hk) as (w & _ & Hw). eauto. }
  rewrite Hvs'. simpl. eexists. split; [done|]. split; [done|]. simpl.
  rewrite (mapR_amap _ _ _ Hvs), (mapR_amap _ _ _ Hvs'). apply (perms_amap os (nd_arr (lx y)) (nd_arr (lx y'))). apply Hp.
Qed.

Lemma cell_turns f : cell_method f -> turns f.
Proof.
  intros H. destruct H.
  - apply copy_turns.
  - apply copy_turns.
  - apply neg_turns.
  - apply abs_turns.
  - apply sign_turns.
  - apply test_turns.
  - apply test_turns.
  - apply test_turns.
  - apply invert_turns.
  - apply clip_turns.
  - apply nan_replace_turns.
  - apply ismissing_turns.
  - apply arith_turns.
  - apply rarith_turns.
  - apply logic_turns.
  - apply compare_turns.
  - apply ufunc_turns.
  - apply power_turns.
  - apply keep_x_turns.
  - apply astype_turns.
Qed.
