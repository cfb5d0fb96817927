(** Reductions along one axis do not care about the order of the axes. *)
From Verif Require Export AxesLanes CommuteReduce ReorderFacts.

Definition prout (os : list nat) (r r' : out) : Prop :=
  match r, r' with OLar z, OLar z' => lprel os z z' | OVal v, OVal v' => v' = v | _, _ => False end.
Definition reduce_turns (f : larry -> Z -> res out) : Prop := forall os y y' axis axis' ax k,
  same_axis os y y' axis axis' ax k -> sim (prout (order_left k ax os)) (f y axis) (f y' axis').

Lemma sa_remove os y y' axis axis' ax k : same_axis os y y' axis axis' ax k ->
  remove_at k (llabel y') = permute (order_left k ax os) (remove_at ax (llabel y)).
Proof.
  intros H. pose proof H as (Hl & _ & _ & Hk). pose proof (lperms_order _ _ _ Hl) as Ho. destruct Hl as (_ & _ & _ & ->). symmetry. by apply permute_remove.
Qed.
Lemma sa_remove_shape os y y' axis axis' ax k : same_axis os y y' axis axis' ax k ->
  perm_of (order_left k ax os) (length (remove_at ax (lshape y))) /\ remove_at k (lshape y') = permute (order_left k ax os) (remove_at ax (lshape y)).
Proof.
  intros H. pose proof (sa_arr _ _ _ _ _ _ _ H) as (_ & _ & Ho & Hs & _). pose proof (sa_k _ _ _ _ _ _ _ H) as Hk. split.
  - rewrite remove_at_length by (by eapply perm_lookup). by apply order_left_perm.
  - change (lshape y') with (shape (nd_arr (lx y'))). rewrite Hs. symmetry. by apply permute_remove.
Qed.
Lemma perms_nil {A} os (a a' : arr A) : perms os a a' -> shape a = [] <-> shape a' = [].
Proof. intros Hp. pose proof (perms_ndim _ _ _ Hp) as E. by destruct (shape a), (shape a'). Qed.
Lemma perms_scalar {A} os (a a' : arr A) : perms os a a' -> shape a = [] -> aget a' [] = aget a [].
Proof.
  intros (_ & _ & Ho & _ & Hg) Hs. rewrite Hs in Ho. assert (os = []) as -> by (by apply Permutation_nil_r). apply (Hg []). rewrite Hs. constructor.
Qed.
Lemma as_out_psim os x x' l l' : nperms os x x' -> l' = permute os l -> sim (prout os) (as_out x l) (as_out x' l').
Proof.
  intros [Hd Hp] ->. unfold as_out. pose proof (perms_nil _ _ _ Hp) as Hn. pose proof (perms_scalar _ _ _ Hp) as Hv. unfold nd_shape.
  destruct (shape (nd_arr x)) as [|n sh] eqn:E.
  - rewrite (proj1 Hn eq_refl), Hv by done. apply sim_bind_same. intros v _. by apply sim_ret.
  - destruct (shape (nd_arr x')) as [|n' sh'] eqn:E'; [by pose proof (proj2 Hn eq_refl)|]. by apply sim_ret.
Qed.
Lemma empty_psim os y y' axis axis' ax k dt v : same_axis os y y' axis axis' ax k ->
  let res := fun (ax : nat) (y : larry) => match remove_at ax (lshape y) with [] => Ok (OVal v)
    | _ => w ← store dt v; Ok (OLar (Larry (Nda dt (full (remove_at ax (lshape y)) w)) (remove_at ax (llabel y)))) end in
  sim (prout (order_left k ax os)) (res ax y) (res k y').
Proof.
  intros H res. unfold res. destruct (sa_remove_shape _ _ _ _ _ _ _ H) as [Ho Hs]. pose proof (permute_length _ _ Ho) as Hl. rewrite <-Hs in Hl.
  assert (forall w : val, perms (order_left k ax os) (full (remove_at ax (lshape y)) w) (full (remove_at k (lshape y')) w)) as Hp by (intros w; rewrite Hs; by apply perms_full).
  destruct (remove_at ax (lshape y)) as [|m sh] eqn:Er, (remove_at k (lshape y')) as [|m' sh'] eqn:Er'; [by apply sim_ret|done|done|].
  apply sim_bind_same. intros w _. apply sim_ret. split; [by split; [|apply Hp]|]. simpl. by eapply sa_remove.
Qed.
Lemma empty_psim_cons os y y' axis axis' ax k dt v : same_axis os y y' axis axis' ax k ->
  let res := fun (ax : nat) (y : larry) => match remove_at ax (lshape y) with [] => Ok (OVal v)
    | sh => w ← store dt v; Ok (OLar (Larry (Nda dt (full sh w)) (remove_at ax (llabel y)))) end in
  sim (prout (order_left k ax os)) (res ax y) (res k y').
Proof.
  intros Hsa res. pose proof (empty_psim os y y' axis axis' ax k dt v Hsa) as H. cbn beta zeta in H. unfold res.
  by destruct (remove_at ax (lshape y)), (remove_at k (lshape y')).
Qed.
Lemma reduce_psim {A B} os (a a' : arr A) (f : list A -> B) ax k e : perms os a a' -> os !! k = Some ax ->
  sim (perms (order_left k ax os)) (of_opt e (reduce f a ax)) (of_opt e (reduce f a' k)).
Proof. intros Hp Hk. apply sim_opt. intros b Hb. by eapply perms_reduce. Qed.
Lemma lane_reduce_psim os y y' axis axis' ax k (f : list val -> val) dt e : same_axis os y y' axis axis' ax k ->
  sim (prout (order_left k ax os)) (b ← of_opt e (reduce f (larr y) ax); as_out (Nda dt b) (remove_at ax (llabel y)))
    (b ← of_opt e (reduce f (larr y') k); as_out (Nda dt b) (remove_at k (llabel y'))).
Proof.
  intros H. eapply sim_bind; [apply reduce_psim; [by eapply sa_arr|by eapply sa_k]|]. intros b b' Hb. apply as_out_psim; [by split|by eapply sa_remove].
Qed.
Ltac sa_start H := pose proof (sa_ix _ _ _ _ _ _ _ H) as Hix; pose proof (sa_ix' _ _ _ _ _ _ _ H) as Hix';
  pose proof (sa_size _ _ _ _ _ _ _ H) as Hsz; pose proof (sa_dt _ _ _ _ _ _ _ H) as Hdt; pose proof (sa_check _ _ _ _ _ _ _ H) as Hck;
  match type of H with same_axis _ ?y ?y' _ _ _ _ =>
    change (nd_ndim (lx y)) with (lndim y) in Hix; change (nd_ndim (lx y')) with (lndim y') in Hix'; change (nd_size (lx y')) with (lsize y') in Hsz;
    change (nd_size (lx y)) with (lsize y) in Hsz; change (nd_dtype (lx y')) with (ldtype y') in Hdt; change (nd_dtype (lx y)) with (ldtype y) in Hdt end.
Lemma red_turns op : reduce_turns (fun y axis => larry_reduce op y (Some axis)).
Proof.
  intros os y y' axis axis' ax k H. unfold larry_reduce. sa_start H. rewrite Hix, Hix', Hsz, Hdt. cbn [of_opt mbind res_bind]. cbn zeta. case_decide.
  - by apply (empty_psim os y y' axis axis' ax k (match op with RAny | RAll => DBool | _ => ldtype y end) (red_default op)).
  - apply sim_bind_same. intros dt _. by eapply lane_reduce_psim.
Qed.
Lemma nums_turns f e : reduce_turns (fun y axis => reduce_nums f e y (Some axis)).
Proof.
  intros os y y' axis axis' ax k H. unfold reduce_nums. sa_start H. rewrite Hix, Hix', Hsz, Hdt, Hck. cbn [of_opt mbind res_bind]. cbn zeta. case_decide.
  - by apply (empty_psim_cons os y y' axis axis' ax k (ldtype y) (VFloat NaN)).
  - apply sim_bind_same. intros _ _. by eapply lane_reduce_psim.
Qed.
Lemma lastrank_turns : reduce_turns larry_lastrank.
Proof.
  intros os y y' axis axis' ax k H. unfold larry_lastrank. sa_start H. rewrite Hix, Hix', Hsz, Hdt, Hck. cbn [of_opt mbind res_bind]. cbn zeta. case_decide.
  - by apply (empty_psim_cons os y y' axis axis' ax k (ldtype y) (VFloat NaN)).
  - apply sim_bind_same. intros _ _. by eapply lane_reduce_psim.
Qed.
Lemma lastrank_decay_turns exp decay : reduce_turns (fun y axis => larry_lastrank_decay exp y axis decay).
Proof.
  intros os y y' axis axis' ax k H. unfold larry_lastrank_decay. sa_start H. rewrite Hix, Hix', Hsz. cbn [of_opt mbind res_bind]. case_decide.
  - by eapply nums_turns.
  - destruct (num_ltb _ decay); [by eapply nums_turns|]. destruct (num_ltb decay _); [apply sim_err|]. by eapply lastrank_turns.
Qed.
Lemma geometric_check_perm (p : num -> bool) os y y' : lperms os y y' -> existsb p (omap to_num (data (larr y'))) = existsb p (omap to_num (data (larr y))).
Proof. intros (_ & _ & (_ & Hp) & _). apply existsb_perm, omap_perm, (perms_data _ _ _ Hp). Qed.
Lemma geometric_mean_turns log exp check : reduce_turns (fun y axis => larry_geometric_mean log exp y (Some axis) check).
Proof.
  intros os y y' axis axis' ax k H. unfold larry_geometric_mean. sa_start H. rewrite Hsz, Hck. case_decide.
  - by eapply nums_turns.
  - apply sim_bind_same. intros _ _. rewrite (geometric_check_perm _ os y y') by apply H. destruct (check && _); [apply sim_err|by eapply nums_turns].
Qed.
Lemma std_turns sqrt ddof : reduce_turns (fun y axis => larry_std sqrt y (Some axis) ddof).
Proof.
  intros os y y' axis axis' ax k H. unfold larry_std, larry_var. sa_start H. rewrite Hsz.
  eapply sim_bind; [by eapply (red_turns (RVar ddof))|]. intros r r' Hr. cbn zeta. apply sim_ret.
  destruct r as [z|v], r' as [z'|v']; [|done|done|]; simpl in Hr.
  - case_decide; [done|]. destruct Hr as [[Hr1 Hr2] Hr3]. split; [|done]. split; [done|]. simpl. by apply perms_amap.
  - subst v'. by case_decide.
Qed.
Lemma mask_nda_perms os m m' x : test_mask is_nan x = Ok m -> perms os m m' -> shape m = nd_shape x.
Proof. unfold test_mask. destruct (nd_dtype x); intros [= <-] _; done. Qed.
Lemma prod_turns : reduce_turns (fun y axis => larry_prod y (Some axis)).
Proof.
  intros os y y' axis axis' ax k H. unfold larry_prod. sa_start H. pose proof H as (Hlp & Hax & Hax' & Hk).
  eapply sim_bind; [apply test_mask_psim, Hlp|]. intros m m' [Hm Hsm]. intros z Hz. apply bind_ok in Hz as (x & Hx & Hz).
  destruct (putmask_scalar_psim os _ _ _ _ _ (sa_n _ _ _ _ _ _ _ H) Hm Hsm _ Hx) as (x' & -> & Hpx). cbn [mbind res_bind].
  assert (Hvx : valid (Larry x (llabel y))).
  { destruct (putmask_scalar_nda (lx y) m (VInt 1) x) as (? & ? & ?); [apply Hlp|apply Hm|done|done|]. apply data_valid; [apply Hlp|done|done]. }
  assert (Hsa : same_axis os (Larry x (llabel y)) (Larry x' (llabel y')) axis axis' ax k).
  { split_and!; [|exact Hax|exact Hax'|done]. destruct Hlp as (_ & _ & _ & ->). by apply plift. }
  apply bind_ok in Hz as (r & Hr & Hz).
  destruct (red_turns RProd os _ _ _ _ _ _ Hsa r Hr) as (r' & Hr' & Hw). rewrite Hr'. cbn [mbind res_bind].
  rewrite Hix'. rewrite Hix in Hz. cbn [of_opt mbind res_bind] in *.
  apply bind_ok in Hz as (q & Hq & Hz). apply of_opt_ok in Hq.
  destruct (perms_reduce _ _ _ _ _ _ _ Hm Hk Hq) as (q' & -> & Hpq). cbn [of_opt mbind res_bind].
  pose proof (perms_nil _ _ _ Hpq) as Hn. pose proof (perms_data _ _ _ Hpq) as Hdq.
  destruct (shape q) as [|q1 qs] eqn:Eq.
  - rewrite (proj1 Hn eq_refl). revert z Hz. rewrite (forallb_perm id _ _ Hdq). apply sim_ret. by case_match.
  - destruct (shape q') as [|q1' qs'] eqn:Eq'; [by pose proof (proj2 Hn eq_refl)|].
    destruct r as [w|v]; [|done]. destruct r' as [w'|v']; [|done].
    revert z Hz. destruct Hw as (Hw1 & Hw2).
    assert (Hshw : shape q = nd_shape (lx w)).
    { apply reduce_Some in Hq as (Hsq & _ & _); [|apply Hm]. assert (valid w) as Hvw by (by eapply (reduce_valid RProd (Larry x (llabel y)) (Some axis))).
      assert (El : llabel w = remove_at ax (llabel y)).
      { clear -Hr Hax Hvx. unfold larry_reduce in Hr. pose proof (valid_ndim _ Hvx) as Hn.
        assert (E : py_index (lndim (Larry x (llabel y))) axis = Some ax) by (apply py_index_Some; rewrite <-Hn; apply Hax).
        rewrite E in Hr. case_decide; cbn [of_opt mbind res_bind] in Hr.
        - destruct (remove_at ax _); [done|]. apply bind_ok in Hr as (v & _ & [= <-]). done.
        - apply bind_ok in Hr as (dt & _ & Hr). apply bind_ok in Hr as (b & _ & Hr). unfold as_out in Hr. destruct (nd_shape _); [by apply bind_ok in Hr as (? & _ & ?)|].
          by injection Hr as <-. }
      change (nd_shape (lx w)) with (lshape w). destruct Hvw as (_ & _ & <- & _). rewrite El, Hsq, Hsm. unfold remove_at.
      change (nd_shape (lx y)) with (lshape y). destruct Hlp as ((_ & _ & <- & _) & _). by rewrite list_fmap_delete. }
    eapply sim_bind; [apply putmask_scalar_psim; [exact Hw1|exact Hpq|exact Hshw]|]. intros u u' Hu. apply sim_ret. by split.
Qed.
Lemma reduce_method_turns f : reduce_method f -> reduce_turns f.
Proof.
  intros H. destruct H.
  - apply red_turns.
  - apply std_turns.
  - apply prod_turns.
  - apply geometric_mean_turns.
  - apply lastrank_turns.
  - apply lastrank_decay_turns.
Qed.
