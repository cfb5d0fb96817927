(** merge and binaryop, which may write to their arguments, compute in memory
    what they compute on values. *)
From Verif Require Export RefineRun.

(** * merge *)
Definition pair_run (h : heap) (m : cmd (nat * nat)) (r : res (larry * larry)) : Prop :=
  match r with
  | Ok st => exists h' q, m h = (h', Ok q) /\ ext h h' /\ has h' q.1 st.1 /\ has h' q.2 st.2
  | Err e => exists h', m h = (h', Err e)
  end.
Lemma merge_step_run h q st ax : has h q.1 st.1 -> has h q.2 st.2 -> pair_run h (h_merge_step q ax) (merge_align_step st ax).
Proof.
  destruct q as [q1 q2], st as [y1 y2]. simpl. intros H1 H2. pose proof (proj1 H1) as R1. pose proof (proj1 H2) as R2.
  unfold h_merge_step, merge_align_step. cbn [fst snd].
  destruct (axis_label y1 ax) as [l1|e] eqn:E1; cbn [mbind res_bind]; [|exists h; by fails].
  destruct (axis_label y2 ax) as [l2|e] eqn:E2; cbn [mbind res_bind]; [|exists h; by fails].
  destruct (decide (l1 = l2)) as [<-|Hne].
  { exists h, (q1, q2). split; [runs; by rewrite decide_True by done|]. split; [apply ext_refl|done]. }
  destruct (sorted_set (l1 ++ l2)) as [ml|e] eqn:Em; cbn [mbind res_bind]; [|exists h; runs; rewrite decide_False by done; by fails].
  pose proof (gives_h_morph h q1 y1 ml (Z.of_nat ax) R1) as G1. unfold gives in G1.
  destruct (morph y1 ml (Z.of_nat ax)) as [z1|e]; cbn [mbind res_bind].
  2:{ destruct G1 as (h' & G1 & _). exists h'. runs. rewrite decide_False by done. by fails. }
  destruct G1 as (h1 & r1 & G1 & X1 & Hz1).
  pose proof (gives_h_morph h1 q2 y2 ml (Z.of_nat ax) (proj1 (has_ext _ _ _ _ X1 H2))) as G2. unfold gives in G2.
  destruct (morph y2 ml (Z.of_nat ax)) as [z2|e]; cbn [mbind res_bind].
  2:{ destruct G2 as (h' & G2 & _). exists h'. runs. rewrite decide_False by done. by fails. }
  destruct G2 as (h2 & r2 & G2 & X2 & Hz2). exists h2, (r1, r2). split; [runs; rewrite decide_False by done; by runs|].
  split; [by eapply ext_trans|]. split; [by eapply has_ext|done].
Qed.
Lemma merge_fold_run l : forall h q st, has h q.1 st.1 -> has h q.2 st.2 -> pair_run h (foldC h_merge_step q l) (foldM merge_align_step st l).
Proof.
  induction l as [|ax l IH]; intros h q st H1 H2; simpl.
  - exists h, q. split; [done|]. split; [apply ext_refl|done].
  - pose proof (merge_step_run h q st ax H1 H2) as Hs. destruct (merge_align_step st ax) as [st'|e]; simpl in Hs |- *.
    + destruct Hs as (h1 & q1 & Hs & X & Ha & Hb). specialize (IH h1 q1 st' Ha Hb). unfold pair_run in *.
      destruct (foldM merge_align_step st' l) as [w|e].
      * destruct IH as (h2 & q2 & Hr & X2 & Hw). exists h2, q2. split; [by runs|]. split; [by eapply ext_trans|done].
      * destruct IH as (h2 & Hr). exists h2. by runs.
    + destruct Hs as (h1 & Hs). exists h1. by fails.
Qed.
(** What a call that returns one larry does. *)
Definition returns (h : heap) (m : cmd nat) (r : res larry) : Prop :=
  match r with
  | Ok z => exists h' q, m h = (h', Ok q) /\ has h' q z
  | Err e => exists h', m h = (h', Err e)
  end.
Lemma merge_returns h p1 p2 y1 y2 update : has h p1 y1 -> has h p2 y2 -> valid y1 -> valid y2 ->
  returns h (h_merge p1 p2 update) (larry_merge y1 y2 update).
Proof.
  intros H1 H2 V1 V2. pose proof (proj1 H1) as R1. pose proof (proj1 H2) as R2.
  pose proof (merge_valid y1 y2 update) as HV. unfold h_merge, larry_merge in *.
  destruct (decide (lndim y1 <> lndim y2)) as [Hn|Hn]; [exists h; runs; by rewrite decide_True by done|]. apply dec_stable in Hn.
  pose proof (merge_fold_run (seq 0 (lndim y1)) h (p1, p2) (y1, y2) H1 H2) as Hf. unfold pair_run in Hf.
  destruct (foldM merge_align_step (y1, y2) (seq 0 (lndim y1))) as [[z1 z2]|e] eqn:Hst; cbn [mbind res_bind] in *.
  2:{ destruct Hf as (h' & Hf). exists h'. runs. rewrite decide_False by tauto. by fails. }
  destruct Hf as (h1 & [q1 q2] & Hf & X & Hz1 & Hz2). cbn [fst snd] in *. pose proof (proj1 Hz1) as Rz1. pose proof (proj1 Hz2) as Rz2.
  pose proof (merge_align_spec _ _ _ _ V1 V2 Hn Hst) as Hal.
  pose proof (aligned_same_label _ _ _ _ (fun l1 l2 r => union_label l1 l2 r) V1 V2 Hn Hal) as Hlab.
  destruct Hal as ((W1 & _) & (W2 & _) & _).
  assert (forall m : larry -> larry -> nat * nat -> cmd nat, (self ← value p1; other ← value p2;
     if decide (lndim self <> lndim other) then lift (Err IndexError) else
     st ← foldC h_merge_step (p1, p2) (seq 0 (lndim self)); m self other st) h = m y1 y2 (q1, q2) h1) as Hgo.
  { intros m. runs. rewrite decide_False by tauto. by runs. }
  unfold returns. rewrite Hgo. cbn [fst snd]. clear Hgo.
  destruct (decide (ldtype y1 = ldtype y2 \/ numeric (ldtype y1) = true /\ numeric (ldtype y2) = true)) as [Hdt|Hdt].
  - destruct (negb update && any_true (mask_and (merge_mask (lx z1)) (merge_mask (lx z2)))) eqn:Hc.
    { exists h1. runs. by rewrite Hc. }
    destruct (any_true (merge_mask (lx z2))) eqn:Ha; cycle 1.
    { exists h1, q1. split; [|done]. runs. by rewrite Hc, Ha. }
    destruct (putmask_arr (lx z1) (merge_mask (lx z2)) (lx z2)) as [x|e] eqn:Hx; cbn [mbind res_bind].
    + destruct (putmask_spec z1 z2 x W1 W2 Hlab Hx) as (Ht & Vx & _).
      destruct (has_write h1 q1 z1 (Larry x (llabel z1)) Hz1) as (a & h2 & Hla & Hw & Hh2); [by apply like_valid|].
      exists h2, q1. split; [|done]. runs. rewrite Hc, Ha. runs. simpl in Hw. by runs.
    + exists h1. runs. rewrite Hc, Ha. by fails.
  - destruct (decide (ldtype y1 = DStr /\ numeric (ldtype y2) = true)) as [Hds|Hds].
    + destruct (negb update && any_true (merge_mask (lx z1))) eqn:Hc; exists h1; runs; by rewrite Hc.
    + exists h1. by runs.
Qed.

(** * binaryop *)
Lemma bind_at_ok {A B} (m : cmd A) (f : A -> cmd B) h h' b : (x ← m; f x) h = (h', Ok b) ->
  exists h1 a, m h = (h1, Ok a) /\ f a h1 = (h', Ok b).
Proof. rewrite bind_at. destruct (m h) as [h1 [a|e]]; [|done]. intros H. by exists h1, a. Qed.
(** An array that is said to be a view is the one of the argument. *)
Definition same_views (s s' : hal) : Prop :=
  (al_view1 (hal_st s') = true -> al_view1 (hal_st s) = true /\ hal_x1 s' = hal_x1 s) /\
  (al_view2 (hal_st s') = true -> al_view2 (hal_st s) = true /\ hal_x2 s' = hal_x2 s).
Lemma align_step_views lar1 lar2 cast js s ax h h' s' : h_align_step lar1 lar2 cast js s ax h = (h', Ok s') -> same_views s s'.
Proof.
  unfold h_align_step. intros H. apply bind_at_ok in H as (h1 & st & H1 & H). apply bind_at_ok in H as (h2 & j & H2 & H).
  apply bind_at_ok in H as (h3 & a1 & H3 & H). apply bind_at_ok in H as (h4 & a2 & H4 & H). injection H as <- <-.
  unfold lift in H1, H2. injection H1 as <- H1. injection H2 as <- H2%of_opt_ok.
  apply align_step_moves in H1 as (j' & Hj & Hm1 & Hm2). rewrite H2 in Hj. injection Hj as <-. cbn zeta in *.
  set (moved := bool_decide _) in *. clearbody moved. split; simpl; intros Hv.
  - destruct (moved && took1 j); [congruence|]. destruct Hm1 as [_ <-]. by injection H3 as _ <-.
  - destruct (moved && took2 j); [congruence|]. destruct Hm2 as [_ <-]. by injection H4 as _ <-.
Qed.
Lemma align_steps_views lar1 lar2 cast js l : forall s h h' s', foldC (h_align_step lar1 lar2 cast js) s l h = (h', Ok s') -> same_views s s'.
Proof.
  induction l as [|ax l IH]; intros s h h' s' H; simpl in H; [by injection H as _ <-|].
  apply bind_at_ok in H as (h1 & s1 & H1 & H). apply align_step_views in H1 as [A1 A2]. apply IH in H as [B1 B2].
  split; intros Hv.
  - destruct (B1 Hv) as [Hv1 ->]. by apply A1.
  - destruct (B2 Hv) as [Hv2 ->]. by apply A2.
Qed.
Lemma align_raw_views p1 p2 j cast h h' s ob1 ob2 : h_objs h !! p1 = Some ob1 -> h_objs h !! p2 = Some ob2 ->
  h_align_raw p1 p2 j cast h = (h', Ok s) ->
  (al_view1 (hal_st s) = true -> hal_x1 s = o_x ob1) /\ (al_view2 (hal_st s) = true -> hal_x2 s = o_x ob2).
Proof.
  intros Ho1 Ho2. unfold h_align_raw. intros H. apply bind_at_ok in H as (h1 & lar1 & H1 & H). apply bind_at_ok in H as (h2 & lar2 & H2 & H).
  unfold value, look in H1, H2. injection H1 as <- _. injection H2 as <- _.
  destruct (decide (lndim lar1 <> lndim lar2)); [done|]. apply bind_at_ok in H as (h3 & js & H3 & H). injection H3 as <- _.
  apply bind_at_ok in H as (h4 & x1 & H4 & H). apply bind_at_ok in H as (h5 & x2 & H5 & H).
  unfold ld_x, look in H4, H5. rewrite Ho1 in H4. injection H4 as <- <-. rewrite Ho2 in H5. injection H5 as <- <-.
  apply align_steps_views in H as [A1 A2]. simpl in *. split; intros Hv; [by apply A1|by apply A2].
Qed.

(** Two arrays in different buffers. *)
Definition two (h : heap) (a1 a2 : harr) (x1 x2 : nda) : Prop :=
  read_arr h a1 = Some x1 /\ read_arr h a2 = Some x2 /\ NoDup (data (a_pos a1)) /\ NoDup (data (a_pos a2)) /\ a_buf a1 <> a_buf a2 /\
  arr_wf (nd_arr x1) /\ arr_wf (nd_arr x2).
Lemma two_sym h a1 a2 x1 x2 : two h a1 a2 x1 x2 -> two h a2 a1 x2 x1.
Proof. intros (A & B & C & D & E & F & G). by split_and!. Qed.
Lemma put_two h a1 a2 x1 x2 mask v : two h a1 a2 x1 x2 -> arr_wf mask -> shape mask = nd_shape x1 ->
  match put_scalar x1 mask v with
  | Ok x => nd_shape x = nd_shape x1 /\ exists h', h_put_scalar a1 mask v h = (h', Ok ()) /\ two h' a1 a2 x x2
  | Err e => exists h', h_put_scalar a1 mask v h = (h', Err e)
  end.
Proof.
  intros (R1 & R2 & N1 & N2 & Hb & W1 & W2) Wm Hm. unfold h_put_scalar.
  assert (load a1 h = (h, Ok x1)) as Hl by (unfold load, look; by rewrite R1).
  destruct (put_scalar x1 mask v) as [x|e] eqn:Hp; [|exists h; by fails].
  assert (nd_dtype x = nd_dtype x1 /\ nd_shape x = nd_shape x1 /\ arr_wf (nd_arr x)) as (Ht & Hs & Wx).
  { split; [by apply put_scalar_keep in Hp|]. unfold put_scalar in Hp. destruct (existsb _ _); [|by injection Hp as <-].
    apply bind_ok in Hp as (r & _ & [= <-]). split; [done|]. by apply azip_wf. }
  split; [done|].
  destruct (write_read h a1 x x1 R1 N1 Ht Hs) as (d & h2 & Hw & -> & Hr).
  { unfold arr_wf, asize in W1, Wx. rewrite W1, Wx. unfold nd_shape in Hs. by rewrite Hs. }
  eexists. split; [by runs|]. split_and!; try done.
  unfold read_arr in *. simpl. by rewrite list_lookup_insert_ne.
Qed.
Lemma put_both h a1 a2 x1 x2 m1 m2 v : two h a1 a2 x1 x2 -> arr_wf m1 -> arr_wf m2 -> shape m1 = nd_shape x1 -> shape m2 = nd_shape x2 ->
  match (x1 ← put_scalar x1 m1 v; x2 ← put_scalar x2 m2 v; Ok (x1, x2)) with
  | Ok q => nd_shape q.1 = nd_shape x1 /\ nd_shape q.2 = nd_shape x2 /\
      exists h', (_ ← h_put_scalar a1 m1 v; h_put_scalar a2 m2 v) h = (h', Ok ()) /\ two h' a1 a2 q.1 q.2
  | Err e => exists h', (_ ← h_put_scalar a1 m1 v; h_put_scalar a2 m2 v) h = (h', Err e)
  end.
Proof.
  intros Ht W1 W2 S1 S2. pose proof (put_two h a1 a2 x1 x2 m1 v Ht W1 S1) as H1.
  destruct (put_scalar x1 m1 v) as [y1|e]; cbn [mbind res_bind]; [|destruct H1 as (h' & H1); exists h'; by fails].
  destruct H1 as (E1 & h1 & H1 & T1). apply two_sym in T1. pose proof (put_two h1 a2 a1 x2 y1 m2 v T1 W2 S2) as H2.
  destruct (put_scalar x2 m2 v) as [y2|e]; cbn [mbind res_bind].
  - destruct H2 as (E2 & h2 & H2 & T2). apply two_sym in T2. split; [done|]. split; [done|]. exists h2. split; [by runs|done].
  - destruct H2 as (h2 & H2). exists h2. by runs.
Qed.
Lemma binaryop_returns h p1 p2 y1 y2 func j cast missone misstwo : has h p1 y1 -> has h p2 y2 -> valid y1 -> valid y2 -> apart h p1 p2 ->
  returns h (h_binaryop func p1 p2 j cast missone misstwo)
    (p ← binaryop func y1 y2 j cast missone misstwo; label ← of_opt NotImplementedError (mapM (fun o => o) p.2); Ok (Larry p.1 label)).
Proof.
  intros H1 H2 V1 V2 Hap. destruct H1 as [R1 (ob1 & is1 & Hob1 & _ & Nd1 & _)], H2 as [R2 (ob2 & is2 & Hob2 & _ & Nd2 & _)].
  unfold h_binaryop, binaryop. pose proof (w_align_raw h p1 p2 y1 y2 j cast R1 R2) as Hr.
  destruct (align_raw y1 y2 j cast) as [st|e] eqn:Hst; cbn [mbind res_bind].
  2:{ destruct Hr as (h2 & Hr & _). exists h2. by fails. }
  destruct Hr as (h2 & s & Hr & <- & (He & [Hx1 Ho1] & [Hx2 Ho2] & H12)).
  destruct (align_raw_views _ _ _ _ _ _ _ _ _ Hob1 Hob2 Hr) as [Hv1 Hv2].
  apply align_raw_inv in Hst as (_ & js & _ & w1 & w2 & Ew1 & Ew2 & (Hw1 & Hw2 & _) & _); [|done..].
  assert (valid w1) as W1 by apply Hw1. assert (valid w2) as W2 by apply Hw2.
  assert (a_buf (o_x ob1) < length (h_bufs h)) as L1 by (apply read_larry_Some in R1 as (ob & ? & E & Hx & _); rewrite Hob1 in E; injection E as <-; by eapply read_arr_lt).
  assert (a_buf (o_x ob2) < length (h_bufs h)) as L2 by (apply read_larry_Some in R2 as (ob & ? & E & Hx & _); rewrite Hob2 in E; injection E as <-; by eapply read_arr_lt).
  assert (two h2 (hal_x1 s) (hal_x2 s) (al_x1 (hal_st s)) (al_x2 (hal_st s))) as Ht.
  { split; [done|]. split; [done|]. split; [|split; [|split; [|rewrite Ew1, Ew2; split; [apply W1|apply W2]]]].
    - destruct (al_view1 (hal_st s)); [by rewrite Hv1|by apply Ho1].
    - destruct (al_view2 (hal_st s)); [by rewrite Hv2|by apply Ho2].
    - destruct (al_view1 (hal_st s)), (al_view2 (hal_st s)).
      + rewrite Hv1, Hv2 by done. intros E. apply (Hap (PBuf (a_buf (o_x ob1)))).
        * exists ob1. split; [done|]. right. right. right. by left.
        * exists ob2. split; [done|]. right. right. right. left. by rewrite E.
      + rewrite Hv1 by done. destruct (Ho2 eq_refl) as [Hge _]. lia.
      + rewrite Hv2 by done. destruct (Ho1 eq_refl) as [Hge _]. lia.
      + by apply H12. }
  assert (load (hal_x1 s) h2 = (h2, Ok (al_x1 (hal_st s)))) as Hl1 by (unfold load, look; by rewrite Hx1).
  assert (load (hal_x2 s) h2 = (h2, Ok (al_x2 (hal_st s)))) as Hl2 by (unfold load, look; by rewrite Hx2).
  assert (nda_wf (al_x1 (hal_st s))) as N1 by (rewrite Ew1; apply W1).
  assert (nda_wf (al_x2 (hal_st s))) as N2 by (rewrite Ew2; apply W2).
  destruct (decide ((missone <> None \/ misstwo <> None) /\ nd_shape (al_x1 (hal_st s)) <> nd_shape (al_x2 (hal_st s)))) as [Hno|Hyes].
  { exists h2. runs. by rewrite decide_True by done. }
  assert (missone <> None \/ misstwo <> None -> nd_shape (al_x1 (hal_st s)) = nd_shape (al_x2 (hal_st s))) as Hsh.
  { intros Hm. destruct (decide (nd_shape (al_x1 (hal_st s)) = nd_shape (al_x2 (hal_st s)))); [done|]. exfalso. by apply Hyes. }
  assert (forall x, shape (ismissing x) = nd_shape x) as Hmis.
  { intros x. unfold ismissing. destruct (missing_marker _) as [m|]; [|done]. by destruct (val_isnan m). }
  pose proof (ismissing_wf _ N1) as M1. pose proof (ismissing_wf _ N2) as M2.
  set (x1 := al_x1 (hal_st s)) in *. set (x2 := al_x2 (hal_st s)) in *.
  set (step1 := match missone with None => ret () | Some v => _ ← h_put_scalar (hal_x1 s) (azip (fun a b => a && negb b) (ismissing x1) (ismissing x2)) v;
    h_put_scalar (hal_x2 s) (azip (fun a b => a && negb b) (ismissing x2) (ismissing x1)) v end).
  set (step2 := match misstwo with None => ret () | Some v => _ ← h_put_scalar (hal_x1 s) (azip andb (ismissing x1) (ismissing x2)) v;
    h_put_scalar (hal_x2 s) (azip andb (ismissing x1) (ismissing x2)) v end).
  assert (match match missone with None => Ok (x1, x2) | Some v =>
      y1 ← put_scalar x1 (azip (fun a b => a && negb b) (ismissing x1) (ismissing x2)) v;
      y2 ← put_scalar x2 (azip (fun a b => a && negb b) (ismissing x2) (ismissing x1)) v; Ok (y1, y2) end with
    | Ok q => nd_shape q.1 = nd_shape x1 /\ nd_shape q.2 = nd_shape x2 /\ exists h', step1 h2 = (h', Ok ()) /\ two h' (hal_x1 s) (hal_x2 s) q.1 q.2
    | Err e => exists h', step1 h2 = (h', Err e) end) as S1.
  { unfold step1. destruct missone as [v|]; [|split; [done|split; [done|by exists h2]]].
    specialize (Hsh ltac:(by left)). apply put_both; [done|apply azip_wf; try done; by rewrite !Hmis|apply azip_wf; try done; by rewrite !Hmis|simpl; by rewrite Hmis..]. }
  unfold returns. destruct (match missone with None => Ok (x1, x2) | Some v => _ end) as [q|e]; cbn [mbind res_bind].
  2:{ destruct S1 as (h3 & S1). exists h3. runs. rewrite decide_False by done. by fails. }
  destruct S1 as (E1 & E2 & h3 & S1 & T1).
  assert (match match misstwo with None => Ok q | Some v =>
      y1 ← put_scalar q.1 (azip andb (ismissing x1) (ismissing x2)) v;
      y2 ← put_scalar q.2 (azip andb (ismissing x1) (ismissing x2)) v; Ok (y1, y2) end with
    | Ok q => exists h', step2 h3 = (h', Ok ()) /\ two h' (hal_x1 s) (hal_x2 s) q.1 q.2
    | Err e => exists h', step2 h3 = (h', Err e) end) as S2.
  { unfold step2. destruct misstwo as [v|]; [|by exists h3].
    specialize (Hsh ltac:(by right)).
    pose proof (put_both h3 _ _ q.1 q.2 (azip andb (ismissing x1) (ismissing x2)) (azip andb (ismissing x1) (ismissing x2)) v T1) as HP.
    specialize (HP ltac:(apply azip_wf; try done; by rewrite !Hmis) ltac:(apply azip_wf; try done; by rewrite !Hmis) ltac:(simpl; by rewrite Hmis, E1) ltac:(simpl; by rewrite Hmis, E2)).
    destruct (_ ← put_scalar q.1 _ v; _) as [r|e]; [|done]. destruct HP as (_ & _ & HP). done. }
  destruct (match misstwo with None => Ok q | Some v => _ end) as [r|e]; cbn [mbind res_bind].
  2:{ destruct S2 as (h4 & S2). exists h4. runs. rewrite decide_False by done. runs. by fails. }
  destruct S2 as (h4 & S2 & T2). destruct T2 as (Q1 & Q2 & _).
  assert (load (hal_x1 s) h4 = (h4, Ok r.1)) as Hl3 by (unfold load, look; by rewrite Q1).
  assert (load (hal_x2 s) h4 = (h4, Ok r.2)) as Hl4 by (unfold load, look; by rewrite Q2).
  destruct (func r.1 r.2) as [x|e] eqn:Hf; cbn [mbind res_bind fst snd].
  2:{ exists h4. runs. rewrite decide_False by done. runs. by fails. }
  destruct (mapM (fun o => o) (al_label (hal_st s))) as [label|] eqn:Hm; cbn [of_opt mbind res_bind].
  2:{ exists h4. runs. rewrite decide_False by done. runs. by fails. }
  destruct (h_new_ok h4 h4 (Larry x label) (ext_refl h4)) as (h5 & p & Hp & _ & Hw). apply working_has in Hw as [_ Hw].
  exists h5, p. split; [|done]. runs. rewrite decide_False by done. by runs.
Qed.

(** * As calls *)
Lemma returns_call h ps env i j f g : Forall2 (has h) ps env -> Forall valid env ->
  (forall p q y m, ps !! i = Some p -> ps !! j = Some q -> has h p y -> has h q m -> valid y -> valid m -> returns h (f p q) (g y m)) ->
  match new (with2 env i j g) with
  | Ok (_, zs) => exists h' rs, (p ← lift (of_opt IndexError (ps !! i)); q ← lift (of_opt IndexError (ps !! j)); one (f p q)) h = (h', Ok rs) /\
      Forall2 (has h') (larrys_of rs) zs
  | Err e => exists h', (p ← lift (of_opt IndexError (ps !! i)); q ← lift (of_opt IndexError (ps !! j)); one (f p q)) h = (h', Err e)
  end.
Proof.
  intros Hps Hv H. unfold with2, nth_larry.
  assert (forall k, env !! k = None -> ps !! k = None) as Hnone.
  { intros k Hk. apply lookup_ge_None. rewrite (Forall2_length _ _ _ Hps). by apply lookup_ge_None. }
  destruct (env !! i) as [y|] eqn:Hy; simpl; [|exists h; by rewrite (Hnone i Hy)].
  destruct (env !! j) as [m|] eqn:Hm; simpl.
  2:{ exists h. rewrite (Hnone j Hm). destruct (ps !! i) as [p|] eqn:Hp; [done|].
      destruct (Forall2_lookup_r _ _ _ _ _ Hps Hy) as (p & Hp' & _). congruence. }
  destruct (Forall2_lookup_r _ _ _ _ _ Hps Hy) as (p & Hp & Hpy). destruct (Forall2_lookup_r _ _ _ _ _ Hps Hm) as (q & Hq & Hqm).
  pose proof (Forall_lookup_1 _ _ _ _ Hv Hy) as Vy. pose proof (Forall_lookup_1 _ _ _ _ Hv Hm) as Vm.
  specialize (H p q y m Hp Hq Hpy Hqm Vy Vm). rewrite Hp, Hq. unfold returns in H. destruct (g y m) as [z|e]; simpl.
  - destruct H as (h' & r & Hr & Hz). exists h', [HLarry r]. split; [|constructor; [exact Hz|constructor]].
    erewrite bind_run by done. erewrite bind_run by done. unfold one. by erewrite bind_run by exact Hr.
  - destruct H as (h' & Hr). exists h'. erewrite bind_run by done. erewrite bind_run by done. unfold one. by erewrite bind_fail by exact Hr.
Qed.
Lemma hexec_merge h ps env i j update : Forall2 (has h) ps env -> Forall valid env ->
  match results env (CMerge i j update) with
  | Ok (_, zs) => exists h' rs, hexec ps (CMerge i j update) h = (h', Ok rs) /\ Forall2 (has h') (larrys_of rs) zs
  | Err e => exists h', hexec ps (CMerge i j update) h = (h', Err e)
  end.
Proof.
  intros Hps Hv. apply (returns_call h ps env i j (fun p q => h_merge p q update) (fun y m => larry_merge y m update)); [done..|].
  intros p q y m _ _. by apply merge_returns.
Qed.
Lemma hexec_binaryop h ps env op i j join cast missone misstwo : Forall2 (has h) ps env -> Forall valid env ->
  (forall p q, ps !! i = Some p -> ps !! j = Some q -> apart h p q) ->
  match results env (CBinaryop op i j join cast missone misstwo) with
  | Ok (_, zs) => exists h' rs, hexec ps (CBinaryop op i j join cast missone misstwo) h = (h', Ok rs) /\ Forall2 (has h') (larrys_of rs) zs
  | Err e => exists h', hexec ps (CBinaryop op i j join cast missone misstwo) h = (h', Err e)
  end.
Proof.
  intros Hps Hv Hap.
  apply (returns_call h ps env i j (fun p q => h_binaryop (np_arith op) p q join cast missone misstwo)
    (fun y m => r ← binaryop (np_arith op) y m join cast missone misstwo; label ← of_opt NotImplementedError (mapM (fun o => o) r.2); Ok (Larry r.1 label))); [done..|].
  intros p q y m Hp Hq Hpy Hqm Vy Vm. apply binaryop_returns; try done. by apply Hap.
Qed.
