(** Every call computes in memory what it computes on values. *)
From Verif Require Export RefineViews.

(** * Calls that keep the labels *)
Ltac keeps_step :=
  match goal with
  | H : Ok _ = Ok _ |- _ => injection H as <-
  | H : Err _ = Ok _ |- _ => discriminate H
  | H : _ ≫= _ = Ok _ |- _ => apply bind_ok in H as (? & ? & H)
  | H : (if decide _ then _ else _) = Ok _ |- _ => case_decide
  | H : (match ?x with _ => _ end) = Ok _ |- _ => destruct x eqn:?
  end.
Ltac keeps := repeat keeps_step; done.

Lemma like_valid y z : valid y -> valid z -> ldtype z = ldtype y -> llabel z = llabel y -> like y z.
Proof.
  intros Hy Hz Ht Hl. assert (lshape z = lshape y) as Hs.
  { rewrite <-(valid_shape y Hy), <-(valid_shape z Hz). by rewrite Hl. }
  split_and!; [done..| |done]. destruct Hy as ([Hy _] & _), Hz as ([Hz _] & _). unfold arr_wf, asize in Hy, Hz.
  unfold larr. rewrite Hy, Hz. unfold lshape, nd_shape in Hs. by rewrite Hs.
Qed.


Lemma rarith_keep op y o z : (match o with OpArr _ | OpScalar _ => true | _ => false end) = true ->
  larry_rarith op y o = Ok z -> llabel z = llabel y.
Proof.
  intros Ho H. destruct op, o; try done; unfold larry_rarith, larry_rsub, larry_rdivide, larry_neg, larry_arith, larry_binary in H; repeat keeps_step; try done;
    simpl; repeat match goal with H : _ = Ok ?x |- context [?x] => progress repeat keeps_step; keeps end.
Qed.
Lemma asub_keep y o z : (match o with OpArr _ | OpScalar _ => true | _ => false end) = true ->
  larry_arith ASub y o = Ok z -> llabel z = llabel y.
Proof. intros Ho H. destruct o; try done; unfold larry_arith, larry_binary in H; keeps. Qed.
Lemma compare_keep op y o z : (match o with OpArr _ | OpScalar _ => true | _ => false end) = true ->
  larry_compare op y o = Ok (OLar z) -> llabel z = llabel y.
Proof.
  intros Ho H. destruct o; try done; unfold larry_compare in H; repeat keeps_step; case_match; try done; injection H as <-; done.
Qed.
Lemma nan_replace_like y v z : valid y -> nan_replace y v = Ok z -> like y z.
Proof. intros Hy H. apply nan_replace_spec in H as (Hz & Hl & Hd & _); [|done]. by apply like_valid. Qed.
Lemma abs_like y z : valid y -> larry_abs y = Ok z -> like y z.
Proof. intros Hy H. apply abs_spec_raw in H as (Hz & Hl & Hd & _); [|done]. by apply like_valid. Qed.
Lemma clip_like y lo hi z : valid y -> larry_clip y lo hi = Ok z -> like y z.
Proof.
  intros Hy H. unfold larry_clip in H. repeat keeps_step; try (split_and!; simpl; by rewrite ?fmap_length).
Qed.

(** * Calls *)
Lemma at1 h ps env i f g : Forall2 (has h) ps env -> Forall valid env ->
  (forall p y, has h p y -> valid y -> gives_out h (f p) (g y)) ->
  gives_out h (p ← lift (of_opt IndexError (ps !! i)); f p) (with1 env i g).
Proof.
  intros Hps Hv H. unfold with1, nth_larry. destruct (env !! i) as [y|] eqn:Hy.
  - destruct (Forall2_lookup_r _ _ _ _ _ Hps Hy) as (p & Hp & Hpy). eapply Forall_lookup_1 in Hv; [|done].
    eapply gives_out_eq; [rewrite Hp; by erewrite bind_run by done|]. by apply H.
  - assert (ps !! i = None) as Hp.
    { apply lookup_ge_None. rewrite (Forall2_length _ _ _ Hps). by apply lookup_ge_None. }
    exists h. split; [rewrite Hp; by erewrite bind_fail by done|apply ext_refl].
Qed.
Lemma at2 h ps env i j f g : Forall2 (has h) ps env -> Forall valid env ->
  (forall p q y z, has h p y -> has h q z -> valid y -> valid z -> gives_out h (f p q) (g y z)) ->
  gives_out h (p ← lift (of_opt IndexError (ps !! i)); q ← lift (of_opt IndexError (ps !! j)); f p q) (with2 env i j g).
Proof.
  intros Hps Hv H. change (with2 env i j g) with (with1 env i (fun y => with1 env j (fun z => g y z))).
  apply at1; [done..|]. intros p y Hp Hy. apply at1; [done..|]. intros q z Hq Hz. by apply H.
Qed.
Lemma mapC_args h ps env is : Forall2 (has h) ps env -> Forall valid env ->
  match mapR (nth_larry env) is with
  | Ok ys => exists qs, mapC (fun i => lift (of_opt IndexError (ps !! i))) is h = (h, Ok qs) /\ Forall2 (has h) qs ys /\ Forall valid ys
  | Err e => mapC (fun i => lift (of_opt IndexError (ps !! i))) is h = (h, Err e)
  end.
Proof.
  intros Hps Hv. induction is as [|i is IH]; [by exists []|]. simpl.
  unfold nth_larry at 1. destruct (env !! i) as [y|] eqn:Hy.
  - destruct (Forall2_lookup_r _ _ _ _ _ Hps Hy) as (p & Hp & Hpy). cbn [of_opt mbind res_bind].
    eapply Forall_lookup_1 in Hv; [|exact Hy].
    destruct (mapR (nth_larry env) is) as [ys|e]; cbn [mbind res_bind].
    + destruct IH as (qs & Hq & Hqs & Hys). exists (p :: qs). split; [|split; by constructor].
      rewrite Hp. erewrite bind_run by done. by erewrite bind_run by exact Hq.
    + rewrite Hp. erewrite bind_run by done. by erewrite bind_fail by exact IH.
  - assert (ps !! i = None) as ->.
    { apply lookup_ge_None. rewrite (Forall2_length _ _ _ Hps). by apply lookup_ge_None. }
    by erewrite bind_fail by done.
Qed.
Lemma at_all h ps env is f g : Forall2 (has h) ps env -> Forall valid env ->
  (forall qs ys, Forall2 (has h) qs ys -> Forall valid ys -> gives_out h (f qs) (g ys)) ->
  gives_out h (qs ← mapC (fun i => lift (of_opt IndexError (ps !! i))) is; f qs) (ys ← mapR (nth_larry env) is; g ys).
Proof.
  intros Hps Hv H. pose proof (mapC_args h ps env is Hps Hv) as Ha. destruct (mapR (nth_larry env) is) as [ys|e]; cbn [mbind res_bind].
  - destruct Ha as (qs & Hq & Hqs & Hys). eapply gives_out_eq; [by erewrite bind_run by exact Hq|]. by apply H.
  - exists h. split; [by erewrite bind_fail by exact Ha|apply ext_refl].
Qed.
Lemma out_new h m r : gives_out h m (z ← r; Ok [z]) -> gives_out h m (x ← new r; Ok (snd x)).
Proof. by destruct r. Qed.
Lemma out_news h m r : gives_out h m r -> gives_out h m (x ← news r; Ok (snd x)).
Proof. by destruct r. Qed.
Lemma with1_one env i (f : larry -> res larry) : (z ← with1 env i f; Ok [z]) = with1 env i (fun y => z ← f y; Ok [z]).
Proof. unfold with1. by destruct (nth_larry env i). Qed.
Lemma with2_one env i j (f : larry -> larry -> res larry) : (z ← with2 env i j f; Ok [z]) = with2 env i j (fun x y => z ← f x y; Ok [z]).
Proof. unfold with2. destruct (nth_larry env i); [|done]. by destruct (nth_larry env j). Qed.
Ltac call1 := first [apply out_new; rewrite with1_one|apply out_news]; apply at1; [done|done|]; intros p y Hp Hy; pose proof (proj1 Hp) as Hr; try apply gives_one.
Ltac call2 := first [apply out_new; rewrite with2_one|apply out_news]; apply at2; [done|done|]; intros p q y z Hp Hq Hy Hz;
  pose proof (proj1 Hp) as Hr; pose proof (proj1 Hq) as Hrq; try apply gives_one.
Ltac writes y := match goal with
  | |- gives ?h (h_copy_write ?f ?p) _ => apply (gives_h_copy_write h p y f)
  | |- gives ?h (h_map ?f ?p) _ => apply (gives_h_map h p y f)
  | |- gives ?h (h_copy_assign ?f ?p) _ => apply (gives_h_copy_assign h p y f)
  | |- gives ?h (h_fresh1 ?f ?p) _ => apply (gives_h_fresh1 h p y f)
  | |- gives_out ?h (h_map_out ?f ?p) _ => apply (outs_gives h _ (f y)), (outs_map h p y f)
  | |- gives_out ?h (h_reduce ?f ?p ?a) _ => apply (outs_gives h _ (f y)), (outs_reduce h p y f a)
  end.
Ltac maps y := writes y; [done|]; let z := fresh in let H := fresh in intros z H; cbn beta in H.
Lemma gives_group h p q y g F axis : has h p y -> has h q g ->
  gives_out h (g ← value q; one (h_copy_assign (fun y => larry_group F y (Some g) axis) p)) (z ← larry_group F y (Some g) axis; Ok [z]).
Proof.
  intros [Hp _] [Hq _]. eapply gives_out_eq; [erewrite bind_run by (by apply value_ok); done|]. apply gives_one.
  apply (gives_h_copy_assign h p y (fun y => larry_group F y (Some g) axis)); [done|]. intros z H. unfold larry_group in H. keeps.
Qed.
Lemma valid_labels y : valid y -> length (llabel y) = lndim y.
Proof. intros (_ & _ & Hs & _). unfold lndim. by rewrite <-Hs, fmap_length. Qed.
Lemma valid_sized y : valid y -> sized (lx y).
Proof. intros ([Hw _] & _). exact Hw. Qed.

Lemma gives_h_keep_x h p y op v vac : read_larry h p = Some y -> valid y -> gives h (h_keep_x p op v vac) (keep_x y op v vac).
Proof.
  intros Hp Hv. apply (gives_value _ _ y); [done|]. rewrite keep_x_steps. destruct (vac && negb _); [by apply gives_err|].
  apply (gives_bind h _ _ (fun q => if vac then h_vacuum q AxNone else ret q) (fun z => if vac then vacuum z AxNone else Ok z)).
  - apply (gives_h_copy_write h p y (fun y => keep_x y op v false)); [done|]. intros z Hz.
    apply keep_x_plain_valid in Hz as (Hz & Hd & Hl); [|done]. by apply like_valid.
  - intros h' q z Hz He Hq. apply keep_x_plain_valid in Hz as (Hz & Hd & Hl); [|done].
    destruct vac; [apply gives_h_vacuum; [apply Hq|done]|]. exists h', q. split; [done|]. split; [apply ext_refl|done].
Qed.
Lemma reduced_nums f e y axis : reduced y axis (reduce_nums f e y axis).
Proof.
  intros z H. unfold reduce_nums in H. case_decide.
  - destruct axis as [a|]; [|done]. apply bind_ok in H as (ax & Ha%of_opt_ok & H). exists a, ax. split; [done|]. split; [done|].
    case_match; [done|]. by apply bind_ok in H as (? & _ & [= <-]).
  - apply bind_ok in H as (_ & _ & H). destruct axis as [a|]; [|done]. apply bind_ok in H as (ax & Ha%of_opt_ok & H).
    apply bind_ok in H as (b & _ & H). exists a, ax. split; [done|]. split; [done|]. by eapply as_out_label.
Qed.
Lemma reduced_err y axis e : reduced y axis (Err e).
Proof. by intros z. Qed.
Lemma reduced_geometric_mean log exp y axis check : reduced y axis (larry_geometric_mean log exp y axis check).
Proof.
  unfold larry_geometric_mean. case_decide; [apply reduced_nums|]. destruct (check_numeric _); [|apply reduced_err].
  cbn [mbind res_bind]. destruct (_ && _); [apply reduced_err|apply reduced_nums].
Qed.
Lemma reduced_lastrank_decay exp y a decay : reduced y (Some a) (larry_lastrank_decay exp y a decay).
Proof.
  unfold larry_lastrank_decay. destruct (of_opt IndexError (py_index (lndim y) a)); [|apply reduced_err]. cbn [mbind res_bind]. case_decide; [apply reduced_nums|]. destruct (num_ltb _ _); [apply reduced_nums|].
  destruct (num_ltb _ _); [apply reduced_err|apply reduced_lastrank].
Qed.

Lemma hexec_gives h ps env c : in_place c = None -> may_write c = false -> Forall2 (has h) ps env -> Forall valid env ->
  gives_out h (hexec ps c) (x ← results env c; Ok (snd x)).
Proof.
  intros Hi Hw Hps Hv. destruct c; try discriminate Hi; try discriminate Hw; unfold hexec, results.
  - apply out_new, gives_one, gives_h_make.
  - call1. by apply gives_h_copy.
  - call1. apply gives_h_maplabel; [done|by apply valid_labels].
  - call1. by apply gives_h_take.
  - call1. by apply gives_h_keep_label.
  - call1. by apply gives_h_pull.
  - call1. by apply gives_h_lag.
  - call1. by apply gives_h_flipaxis.
  - call1. by apply gives_h_T.
  - call1. by apply gives_h_swapaxes.
  - apply out_new; rewrite with1_one; apply at1; [done|done|]; intros p y Hp Hy. by apply gives_h_squeeze.
  - call1. by apply gives_h_insertaxis.
  - call1. by apply gives_h_morph.
  - call2. by apply gives_h_morph_like.
  - call1. by apply gives_h_sortaxis.
  - call1. writes y; [done|]. intros z. by apply nan_replace_like.
  - call1. maps y. by keeps.
  - call2. by apply gives_h_binary.
  - call1. maps y. unfold larry_arith, larry_binary in *. keeps.
  - call1. maps y. unfold larry_arith, larry_binary in *. keeps.
  - call1. destruct op; try (maps y; match goal with H : larry_rarith _ _ _ = Ok _ |- _ => by apply rarith_keep in H end). apply gives_h_rsub; [done|]. intros z. by apply asub_keep.
  - call1. destruct op; try (maps y; match goal with H : larry_rarith _ _ _ = Ok _ |- _ => by apply rarith_keep in H end). apply gives_h_rsub; [done|]. intros z. by apply asub_keep.
  - call2. by apply gives_h_binary.
  - call1. maps y. unfold larry_logic, larry_binary in *. keeps.
  - call1. maps y. unfold larry_logic, larry_binary in *. keeps.
  - call2. by apply gives_h_compare.
  - call1. writes y; [done|]. intros z. by apply compare_keep.
  - call1. writes y; [done|]. intros z. by apply compare_keep.
  - call1. maps y. unfold larry_neg in *. keeps.
  - call1. writes y; [done|]. intros z. by apply abs_like.
  - call1. maps y. unfold larry_sign in *. keeps.
  - call1. maps y. unfold larry_isnan in *. keeps.
  - call1. maps y. unfold larry_isfinite in *. keeps.
  - call1. maps y. unfold larry_isinf in *. keeps.
  - call1. maps y. unfold larry_invert in *. keeps.
  - call1. apply gives_h_cum; [done|by apply valid_sized].
  - call1. writes y; [done|]. intros z. by apply clip_like.
  - call1. writes y; [done|apply reduced_reduce].
  - call1. writes y; [done|apply reduced_std].
  - call1. apply gives_h_prod; [done|by apply valid_sized].
  - call1. writes y; [done|apply reduced_lastrank].
  - call1. by apply gives_h_vacuum.
  - call1. by apply gives_h_cut_missing.
  - call1. maps y. unfold larry_push in *. keeps.
  - call1. maps y. unfold larry_ranking in *. keeps.
  - call1. maps y. unfold larry_quantile in *. keeps.
  - call1. maps y. unfold larry_demean in *. keeps.
  - call1. maps y. unfold larry_demedian in *. keeps.
  - call1. maps y. unfold larry_zscore in *. keeps.
  - call1. writes y; [done|]. intros z H. unfold larry_movingsum_forward in *. keeps.
  - call1. maps y. unfold larry_move_func in *. keeps.
  - call1. maps y. unfold larry_move_median in *. keeps.
  - call1. maps y. unfold larry_move_ranking in *. keeps.
  - call2. by apply gives_group.
  - call2. by apply gives_group.
  - call2. by apply gives_group.
  - call1. by apply gives_h_getitem.
  - call1. by apply gives_h_lix_get.
  - call1. by writes y.
  - call1. by writes y.
  - apply out_new, gives_one, gives_h_make.
  - apply out_new, gives_one, gives_h_make.
  - apply out_new, gives_one, gives_h_make.
  - call2. by apply gives_h_align.
  - apply out_news. apply at_all; [done..|]. intros qs ys Hq _. apply gives_h_align_axis. eapply Forall2_impl; [exact Hq|]. by intros ?? [??].
  - destruct missone, misstwo; try discriminate Hw. call2. by apply gives_h_binaryop.
  - apply out_new. set (r := (z ← _; Ok [z])). replace r with (ys ← mapR (nth_larry env) is; z ← stack mode (zip names ys); Ok [z]) by (unfold r; by destruct (mapR _ is)).
    apply at_all; [done..|]. intros qs ys Hq _. eapply gives_out_eq; [erewrite bind_run; [done|]|]; [|apply gives_one, gives_h_make].
    apply mapC_value. eapply Forall2_impl; [exact Hq|]. by intros ?? [??].
  - call1. by writes y.
  - call1. by writes y.
  - call1. by writes y.
  - apply out_new, gives_one, gives_h_make.
  - apply out_new, gives_one, gives_h_make.
  - apply out_new, gives_one, gives_h_make.
  - apply out_news. destruct (larry_rand f args label) as [[z|v]|e]; cbn [mbind res_bind out_larrys].
    + pose proof (gives_one h _ _ (gives_h_new h z)) as Hg. exact Hg.
    + exists h, [HScalar v]. split; [done|]. split; [apply ext_refl|constructor].
    + exists h. split; [done|apply ext_refl].
  - call1. by apply gives_h_split.
  - call1. by apply gives_h_copy.
  - call1. maps y. unfold larry_ufunc in *. keeps.
  - call1. maps y. unfold larry_power, larry_ufunc in *. keeps.
  - call1. writes y; [done|apply reduced_geometric_mean].
  - call1. writes y; [done|apply reduced_lastrank_decay].
  - call1. by apply gives_h_keep_x.
  - call1. maps y. unfold larry_move in *. keeps.
  - call1. maps y. unfold larry_astype in *. keeps.
  - apply out_new, gives_one, gives_h_make.
  - apply out_new, gives_one, gives_h_make.
Qed.
