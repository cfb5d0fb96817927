(** Programs compute in memory what they compute on values. *)
From Verif Require Export RefineExec.

(** * Calls that work in place *)
Lemma has_write h p y z : has h p y -> like y z ->
  exists a h', ld_x p h = (h, Ok a) /\ write a (lx z) h = (h', Ok ()) /\ has h' p z.
Proof.
  intros [Hr (ob & is & Hob & His & Hd & Hdi)] (Ht & Hs & Hlen & Hl).
  apply read_larry_Some in Hr as (ob' & is' & Hob' & Hx & Ho & Hm). rewrite Hob in Hob'. injection Hob' as <-.
  destruct (write_read h (o_x ob) (lx z) (lx y) Hx Hd Ht Hs Hlen) as (d & h2 & Hw & -> & Hr2).
  eexists (o_x ob), _. split; [unfold ld_x, look; by rewrite Hob|]. split; [exact Hw|]. split.
  - apply read_larry_Some. exists ob, is'. split; [done|]. split; [done|]. split; [done|]. simpl. by rewrite Hl.
  - by exists ob, is.
Qed.
(** What an in-place call does. *)
Definition becomes (h : heap) (p : nat) (m : cmd (list hval)) (r : res larry) : Prop :=
  match r with
  | Ok z => exists h', m h = (h', Ok []) /\ has h' p z
  | Err e => exists h', m h = (h', Err e)
  end.
Lemma becomes_h_inplace h p y f : has h p y -> (forall z, f y = Ok z -> like y z) -> becomes h p (h_inplace f p) (f y).
Proof.
  intros Hp Hf. pose proof (proj1 Hp) as Hr. unfold h_inplace. destruct (f y) as [z|e] eqn:Hz; simpl.
  - destruct (has_write h p y z Hp (Hf z eq_refl)) as (a & h' & Ha & Hw & Hh). exists h'. split; [by runs|done].
  - exists h. by fails.
Qed.
Lemma mapM_insert_same (ls : list (list lab)) (is : list nat) (label : list (list lab)) ax i l : mapM (ls !!.) is = Some label -> NoDup is ->
  is !! ax = Some i -> mapM ((<[i := l]> ls) !!.) is = Some (<[ax := l]> label).
Proof.
  rewrite !mapM_Some. intros Hm Hd Hi. apply Forall2_same_length_lookup_2; [by rewrite insert_length, (Forall2_length _ _ _ Hm)|].
  intros k j l' Hj Hl'. destruct (decide (k = ax)) as [->|Hne].
  - rewrite Hi in Hj. injection Hj as <-. destruct (Forall2_lookup_l _ _ _ _ _ Hm Hi) as (l0 & Hl0 & Hli).
    rewrite list_lookup_insert in Hl' by (by eapply lookup_lt_Some). rewrite list_lookup_insert by (by eapply lookup_lt_Some). done.
  - rewrite list_lookup_insert_ne in Hl' by done. rewrite list_lookup_insert_ne.
    + destruct (Forall2_lookup_l _ _ _ _ _ Hm Hj) as (l0 & Hl0 & Hli). congruence.
    + intros ->. apply Hne. by eapply NoDup_lookup.
Qed.
Lemma has_shufflelabel_at h p y d ax : has h p y -> 
  match shufflelabel_axis (d ax) y ax with
  | Ok z => exists h', h_shufflelabel_at d p ax h = (h', Ok ()) /\ has h' p z
  | Err e => exists h', h_shufflelabel_at d p ax h = (h', Err e)
  end.
Proof.
  intros [Hr (ob & is & Hob & His & Hd & Hdi)]. unfold shufflelabel_axis, axis_label.
  apply read_larry_Some in Hr as (ob' & is' & Hob' & Hx & Ho & Hm). rewrite Hob in Hob'. injection Hob' as <-.
  rewrite His in Ho. injection Ho as <-.
  assert (ld_label p h = (h, Ok (o_label ob))) as H1 by (unfold ld_label, look; by rewrite Hob).
  assert (get_outer (o_label ob) h = (h, Ok is)) as H2 by (unfold get_outer, look; by rewrite His).
  unfold h_shufflelabel_at. pose proof Hm as Hm'. rewrite mapM_Some in Hm'.
  destruct (llabel y !! ax) as [l|] eqn:Hl; simpl.
  - destruct (Forall2_lookup_r _ _ _ _ _ Hm' Hl) as (i & Hi & Hli). simpl in Hli.
    assert (get_list i h = (h, Ok l)) as H3 by (unfold get_list, look; by rewrite Hli).
    destruct (np_shuffle_list (d ax) l) as [l'|e] eqn:Hl'; simpl.
    + eexists. erewrite bind_run by exact H1. erewrite bind_run by exact H2. rewrite Hi. erewrite bind_run by done. erewrite bind_run by exact H3.
      erewrite bind_run by (by rewrite Hl'). split; [unfold set_list; by rewrite Hli|]. split.
      * apply read_larry_Some. exists ob, is. simpl. split; [done|]. split; [done|]. split; [done|]. by apply mapM_insert_same.
      * by exists ob, is.
    + exists h. erewrite bind_run by exact H1. erewrite bind_run by exact H2. rewrite Hi. erewrite bind_run by done. erewrite bind_run by exact H3.
      by erewrite bind_fail by (by rewrite Hl').
  - assert (is !! ax = None) as Hi by (apply lookup_ge_None; rewrite (Forall2_length _ _ _ Hm'); by apply lookup_ge_None).
    exists h. erewrite bind_run by exact H1. erewrite bind_run by exact H2. rewrite Hi. by erewrite bind_fail by done.
Qed.
Lemma has_shufflelabel h p y d axis : has h p y -> becomes h p (h_shufflelabel d p axis) (larry_shufflelabel d y axis).
Proof.
  intros Hp. pose proof (proj1 Hp) as Hr.
  assert (forall l h y, has h p y -> 
    match foldM (fun y ax => shufflelabel_axis (d ax) y ax) y l with
    | Ok z => exists h', foldC (fun _ ax => h_shufflelabel_at d p ax) () l h = (h', Ok ()) /\ has h' p z
    | Err e => exists h', foldC (fun _ ax => h_shufflelabel_at d p ax) () l h = (h', Err e)
    end) as Hf.
  { clear. induction l as [|ax l IH]; intros h y Hp; simpl; [by exists h|].
    pose proof (has_shufflelabel_at h p y d ax Hp) as Ha. destruct (shufflelabel_axis (d ax) y ax) as [z|e]; simpl.
    - destruct Ha as (h1 & H1 & Hz). specialize (IH h1 z Hz). destruct (foldM _ z l).
      + destruct IH as (h2 & H2 & Hw). exists h2. split; [|done]. by erewrite bind_run by exact H1.
      + destruct IH as (h2 & H2). exists h2. by erewrite bind_run by exact H1.
    - destruct Ha as (h1 & H1). exists h1. by erewrite bind_fail by exact H1. }
  unfold h_shufflelabel, larry_shufflelabel. destruct axis as [a|].
  - destruct (py_axis y a) as [ax|e] eqn:Ha; simpl.
    + specialize (Hf [ax] h y Hp). simpl in Hf. destruct (shufflelabel_axis (d ax) y ax) as [z|e]; simpl in *.
      * destruct Hf as (h2 & H2 & Hw). exists h2. split; [|done]. erewrite bind_run by known_step. erewrite bind_run by (by rewrite Ha).
        by erewrite bind_run by exact H2.
      * destruct Hf as (h2 & H2). exists h2. erewrite bind_run by known_step. erewrite bind_run by (by rewrite Ha). by erewrite bind_fail by exact H2.
    + exists h. erewrite bind_run by known_step. by erewrite bind_fail by (by rewrite Ha).
  - specialize (Hf (seq 0 (lndim y)) h y Hp). destruct (foldM _ _ _) as [z|e]; simpl in *.
    + destruct Hf as (h2 & H2 & Hw). exists h2. split; [|done]. erewrite bind_run by known_step. erewrite bind_run by done. by erewrite bind_run by exact H2.
    + destruct Hf as (h2 & H2). exists h2. erewrite bind_run by known_step. erewrite bind_run by done. by erewrite bind_fail by exact H2.
Qed.

Lemma set_like y l v z : valid y -> larry_set y l v = Ok z -> like y z.
Proof. intros Hy H. apply larry_set_spec in H as (Hz & Hl & _ & Hd & _); [|done]. by apply like_valid. Qed.
Lemma fill_like y v z : valid y -> larry_fill y v = Ok z -> like y z.
Proof. intros Hy H. apply larry_fill_spec in H as (Hz & Hl & Hd & _); [|done]. by apply like_valid. Qed.
Lemma setitem_keep y ix v z : larry_setitem y ix v = Ok z -> ldtype z = ldtype y /\ llabel z = llabel y.
Proof. intros H. unfold larry_setitem in H. repeat keeps_step; done. Qed.
Lemma setitem_like y ix v z : valid y -> larry_setitem y ix v = Ok z -> like y z.
Proof. intros Hy H. pose proof (setitem_keep _ _ _ _ H) as [??]. apply like_valid; [done|by eapply setitem_valid|done..]. Qed.
Lemma setmask_like y m v z : valid y -> valid m -> larry_setmask y m v = Ok z -> like y z.
Proof.
  intros Hy Hm H. apply like_valid; [done|exact (setmask_valid _ _ _ _ Hy Hm H)|..]; unfold larry_setmask in H; repeat keeps_step; try done.
  match goal with H : putmask_scalar _ _ _ = Ok _ |- _ => apply putmask_scalar_nda in H as (_ & _ & H); [done|apply Hy|..] end;
  match goal with H : of_opt _ _ = Ok _ |- _ => apply of_opt_ok in H; destruct (ldtype m); try done; injection H as <- end.
  - apply amap_wf, Hm.
  - change (lshape m = lshape y). rewrite <-(valid_shape y Hy), <-(valid_shape m Hm). congruence.
Qed.
Lemma lix_set_like y ix v z : valid y -> lix_set y ix v = Ok z -> like y z.
Proof.
  intros Hy H. apply like_valid; [done|by eapply lix_set_valid|..]; unfold lix_set in H; repeat keeps_step; try done; by apply setitem_keep in H as [??].
Qed.
Lemma shuffle_like d y axis z : valid y -> larry_shuffle d y axis = Ok z -> like y z.
Proof.
  intros Hy H. assert (ldtype z = ldtype y /\ llabel z = llabel y) as [??]; [|apply like_valid; [done|by eapply shuffle_valid|done..]].
  assert (forall y ax z, shuffle_axis (d ax) y ax = Ok z -> ldtype z = ldtype y /\ llabel z = llabel y) as Ha.
  { clear. intros y ax z H. unfold shuffle_axis in H. repeat keeps_step. done. }
  unfold larry_shuffle in H. destruct axis as [a|].
  - apply bind_ok in H as (ax & _ & H). by eapply Ha.
  - clear Hy. revert H. generalize (seq 0 (lndim y)). intros l. revert y. induction l as [|ax l IH]; intros y H; simpl in H; [by injection H as <-|].
    apply bind_ok in H as (w & Hw & H). apply Ha in Hw as [E1 E2]. apply IH in H as [F1 F2]. split; congruence.
Qed.

Lemma in1 h ps env i f g : Forall2 (has h) ps env -> Forall valid env -> 
  (forall p y, has h p y -> valid y -> becomes h p (f p) (g y)) ->
  match with1 env i g with
  | Ok z => exists p h', ps !! i = Some p /\ (p ← lift (of_opt IndexError (ps !! i)); f p) h = (h', Ok []) /\ has h' p z
  | Err e => exists h', (p ← lift (of_opt IndexError (ps !! i)); f p) h = (h', Err e)
  end.
Proof.
  intros Hps Hv H. unfold with1, nth_larry. destruct (env !! i) as [y|] eqn:Hy; simpl.
  - destruct (Forall2_lookup_r _ _ _ _ _ Hps Hy) as (p & Hp & Hpy). eapply Forall_lookup_1 in Hv; [|done].
    specialize (H p y Hpy Hv). rewrite Hp. destruct (g y) as [z|e]; simpl in *.
    + destruct H as (h' & Hf & Hz). exists p, h'. split; [done|]. split; [|done]. by erewrite bind_run by done.
    + destruct H as (h' & Hf). exists h'. by erewrite bind_run by done.
  - assert (ps !! i = None) as ->.
    { apply lookup_ge_None. rewrite (Forall2_length _ _ _ Hps). by apply lookup_ge_None. }
    exists h. by erewrite bind_fail by done.
Qed.
Lemma in2 h ps env i j f g : Forall2 (has h) ps env -> Forall valid env -> 
  (forall p q y m, has h p y -> has h q m -> valid y -> valid m -> becomes h p (f p q) (g y m)) ->
  match with2 env i j g with
  | Ok z => exists p h', ps !! i = Some p /\ (p ← lift (of_opt IndexError (ps !! i)); q ← lift (of_opt IndexError (ps !! j)); f p q) h = (h', Ok []) /\ has h' p z
  | Err e => exists h', (p ← lift (of_opt IndexError (ps !! i)); q ← lift (of_opt IndexError (ps !! j)); f p q) h = (h', Err e)
  end.
Proof.
  intros Hps Hv H. change (with2 env i j g) with (with1 env i (fun y => with1 env j (fun m => g y m))).
  apply (in1 h ps env i (fun p => q ← lift (of_opt IndexError (ps !! j)); f p q)); [done..|].
  intros p y Hp Hy. unfold with1, nth_larry. destruct (env !! j) as [m|] eqn:Hm; simpl.
  - destruct (Forall2_lookup_r _ _ _ _ _ Hps Hm) as (q & Hq & Hqm). eapply Forall_lookup_1 in Hv; [|done].
    specialize (H p q y m Hp Hqm Hy Hv). rewrite Hq. destruct (g y m) as [z|e]; simpl in *.
    + destruct H as (h' & Hf & Hz). exists h'. split; [|done]. by erewrite bind_run by done.
    + destruct H as (h' & Hf). exists h'. by erewrite bind_run by done.
  - assert (ps !! j = None) as ->.
    { apply lookup_ge_None. rewrite (Forall2_length _ _ _ Hps). by apply lookup_ge_None. }
    exists h. by erewrite bind_fail by done.
Qed.
Lemma hexec_becomes h ps env c i : in_place c = Some i -> Forall2 (has h) ps env -> Forall valid env ->
  match results env c with
  | Ok (o, zs) => exists z p h', o = Some (i, z) /\ zs = [] /\ ps !! i = Some p /\ hexec ps c h = (h', Ok []) /\ has h' p z
  | Err e => exists h', hexec ps c h = (h', Err e)
  end.
Proof.
  intros Hi Hps Hv.
  assert (forall r, match r with
    | Ok z => exists p h', ps !! i = Some p /\ hexec ps c h = (h', Ok []) /\ has h' p z
    | Err e => exists h', hexec ps c h = (h', Err e) end ->
    match inplace i r with
    | Ok (o, zs) => exists z p h', o = Some (i, z) /\ zs = [] /\ ps !! i = Some p /\ hexec ps c h = (h', Ok []) /\ has h' p z
    | Err e => exists h', hexec ps c h = (h', Err e)
    end) as Hin.
  { intros [z|e]; simpl; [|done]. intros (p & h' & H). by exists z, p, h'. }
  destruct c; try discriminate Hi; injection Hi as <-; unfold results; apply Hin; unfold hexec.
  - apply in1; [done..|]. intros p y Hp Hy. apply (becomes_h_inplace h p y (fun y => larry_set y label v)); [done|]. intros z. by apply set_like.
  - apply in1; [done..|]. intros p y Hp Hy. apply (becomes_h_inplace h p y (fun y => larry_fill y v)); [done|]. intros z. by apply fill_like.
  - apply in1; [done..|]. intros p y Hp Hy. apply (becomes_h_inplace h p y (fun y => larry_setitem y ix v)); [done|]. intros z. by apply setitem_like.
  - apply (in2 h ps env i0 j (fun p q => m ← value q; h_inplace (fun y => larry_setmask y m v) p)); [done..|]. intros p q y m Hp Hq Hy Hm.
    pose proof (becomes_h_inplace h p y (fun y => larry_setmask y m v) Hp) as Hb. pose proof (proj1 Hq) as Hr.
    assert ((m0 ← value q; h_inplace (fun y0 => larry_setmask y0 m0 v) p) h = h_inplace (fun y0 => larry_setmask y0 m v) p h) as E.
    { by erewrite bind_run by known_step. }
    unfold becomes in *. rewrite E. apply Hb. intros z. by apply setmask_like.
  - apply in1; [done..|]. intros p y Hp Hy. apply (becomes_h_inplace h p y (fun y => lix_set y ix v)); [done|]. intros z. by apply lix_set_like.
  - apply in1; [done..|]. intros p y Hp Hy. apply (becomes_h_inplace h p y (fun y => larry_shuffle d y axis)); [done|]. intros z. by apply shuffle_like.
  - apply (in1 h ps env i0 (fun p => h_shufflelabel d p axis)); [done..|]. intros p y Hp Hy. by apply has_shufflelabel.
Qed.

(** * Larrys that share nothing *)
Lemma part_of_grow h h' p x : ext h h' -> part_of h p x -> part_of h' p x.
Proof.
  intros (_ & _ & Ho & Hp) (ob & Hob & Hx). exists ob. split; [by eapply prefix_lookup_old|].
  destruct Hx as [?|[?|[(is & i & His & ?)|?]]]; [by left|by right; left| |by right; right; right].
  right; right; left. exists is, i. split; [by eapply prefix_lookup_old|done].
Qed.
Lemma apart_ext h h' p q y z : ext h h' -> has h p y -> has h q z -> apart h p q -> apart h' p q.
Proof. intros He [Hp _] [Hq _] Ha x Hx Hy. apply (Ha x); by eapply part_of_ext. Qed.
Lemma own_apart h h' p q y : ext h h' -> has h p y -> own h h' (HLarry q) -> apart h' p q.
Proof.
  intros He [Hp _] Ho x Hx Hy. apply Ho in Hy. eapply part_of_ext in Hx; [|done..].
  destruct (read_parts h p y x Hp Hx) as [ct Hct]. congruence.
Qed.
Lemma apart_sym h p q : apart h p q -> apart h q p.
Proof. intros H x Hq Hp. by apply (H x). Qed.
(** Calls that do not look at the past of their result. *)
Lemma take_own h p idx axis h' q : h_take p idx axis h = (h', Ok q) -> own h h' (HLarry q).
Proof.
  intros H. destruct (ok_h_take h p idx axis h (inv_refl (strict h))) as [Hi Hq]. rewrite H in Hi, Hq.
  apply strict_own; [done|]. by apply Hq.
Qed.
Lemma morph_own h p l axis h' q : h_morph p l axis h = (h', Ok q) -> own h h' (HLarry q).
Proof.
  intros H. destruct (ok_h_morph h p l axis h (inv_refl (strict h))) as [Hi Hq]. rewrite H in Hi, Hq.
  apply strict_own; [done|]. by apply Hq.
Qed.
Lemma own_weak h h1 h2 q : ext h h1 -> own h1 h2 (HLarry q) -> own h h2 (HLarry q).
Proof.
  intros He Ho x Hx. destruct (content_of h x) as [c|] eqn:Hc; [|done]. apply Ho in Hx. by rewrite (ext_unchanged _ _ He x c Hc) in Hx.
Qed.
Lemma own_later h h1 h2 q z : ext h1 h2 -> has h1 q z -> own h h1 (HLarry q) -> own h h2 (HLarry q).
Proof. intros He [Hq _] Ho x Hx. apply Ho. by eapply part_of_ext. Qed.
Lemma separate_cons h p ps : (forall q, q ∈ ps -> apart h p q) -> separate h ps -> separate h (p :: ps).
Proof.
  intros Hp Hs [|i] [|j] q r Hne Hi Hj; simpl in *; simplify_eq.
  - apply Hp. by eapply elem_of_list_lookup_2.
  - apply apart_sym, Hp. by eapply elem_of_list_lookup_2.
  - eapply Hs; [|done..]. congruence.
Qed.
Lemma separate_nil h : separate h [].
Proof. by intros [|i] j p q. Qed.
Lemma separate_app h ps qs : separate h ps -> separate h qs -> (forall p q, p ∈ ps -> q ∈ qs -> apart h p q) -> separate h (ps ++ qs).
Proof.
  intros Hp Hq Hpq. induction ps as [|p ps IH]; [done|]. simpl. apply separate_cons.
  - intros q [H|H]%elem_of_app; [|by apply Hpq; [left|]]. apply elem_of_list_lookup in H as [k Hk]. by apply (Hp 0 (S k)).
  - apply IH; [|by intros; apply Hpq; [right|]]. intros i j a b Hne Hi Hj. by apply (Hp (S i) (S j)); [lia|..].
Qed.
Lemma separate_short h ps : length ps <= 1 -> separate h ps.
Proof. intros Hl i j p q Hne Hi Hj. apply lookup_lt_Some in Hi, Hj. lia. Qed.

Lemma align_axis_separate label (axis : list Z) l : forall h h' rs,
  Forall (fun r : nat * nat => exists y, read_larry h r.2 = Some y) l ->
  mapC (fun r => a ← lift (of_opt IndexError (axis !! r.1)); q ← h_morph r.2 label a; ret (HLarry q)) l h = (h', Ok rs) ->
  ext h h' /\ separate h' (larrys_of rs) /\ Forall (fun q => own h h' (HLarry q)) (larrys_of rs).
Proof.
  induction l as [|r l IH]; intros h h' rs Hl H.
  - injection H as <- <-. split; [apply ext_refl|]. split; [apply separate_nil|constructor].
  - apply Forall_cons in Hl as [[y Hy] Hl]. simpl in H. destruct (axis !! r.1) as [a|]; [|discriminate H].
    rewrite bind_assoc in H. erewrite bind_run in H by done. rewrite bind_assoc in H.
    destruct (h_morph r.2 label a h) as [h1 [q|e]] eqn:Hq; [|by erewrite bind_fail in H by exact Hq].
    erewrite bind_run in H by exact Hq. erewrite bind_run in H by done.
    pose proof (gives_h_morph h r.2 y label a Hy) as Hg. unfold gives in Hg.
    destruct (morph y label a) as [z|e]; [|destruct Hg as (h2 & Hg & _); congruence].
    destruct Hg as (h2 & q2 & Hg & He & Hz). rewrite Hq in Hg. injection Hg as <- <-.
    set (m := mapC _ l) in H. destruct (m h1) as [h3 [rs'|e]] eqn:Hrs; [|by erewrite bind_fail in H by exact Hrs].
    erewrite bind_run in H by exact Hrs. injection H as <- <-.
    destruct (IH h1 h3 rs') as (He3 & Hs & Ho); [|exact Hrs|].
    { eapply Forall_impl; [exact Hl|]. intros r' [y' Hy']. exists y'. by eapply read_larry_ext. }
    apply morph_own in Hq. split; [by eapply ext_trans|]. split.
    + apply separate_cons; [|done]. intros q' Hq'. rewrite Forall_forall in Ho. eapply own_apart; [exact He3|exact Hz|by apply Ho].
    + constructor; [by eapply own_later|]. eapply Forall_impl; [exact Ho|]. intros q'. by apply own_weak.
Qed.
Lemma h_align_separate h p1 p2 y1 y2 j cast h' rs : read_larry h p1 = Some y1 -> read_larry h p2 = Some y2 ->
  h_align p1 p2 j cast h = (h', Ok rs) -> separate h' (larrys_of rs).
Proof.
  intros H1 H2 H. unfold h_align in H. do 2 erewrite bind_run in H by known_step.
  pose proof (w_align_raw h p1 p2 y1 y2 j cast H1 H2) as Hr. destruct (align_raw y1 y2 j cast) as [st|e].
  2:{ destruct Hr as (h2 & Hr & _). by erewrite bind_fail in H by exact Hr. }
  destruct Hr as (h2 & s & Hr & <- & (He & [Hx1 _] & [Hx2 _] & Hne)). erewrite bind_run in H by exact Hr.
  destruct (own_label y1 (al_label (hal_st s))) as [label1|e]; [|discriminate H]. erewrite bind_run in H by done.
  destruct (own_label y2 (al_label (hal_st s))) as [label2|e]; [|discriminate H]. erewrite bind_run in H by done.
  destruct (h_own (hal_x1 s) (al_view1 (hal_st s)) label1 h2) as [h3 [q1|e]] eqn:Hq1; [|by erewrite bind_fail in H by exact Hq1].
  erewrite bind_run in H by exact Hq1.
  destruct (h_own (hal_x2 s) (al_view2 (hal_st s)) label2 h3) as [h4 [q2|e]] eqn:Hq2; [|by erewrite bind_fail in H by exact Hq2].
  erewrite bind_run in H by exact Hq2. injection H as <- <-.
  destruct (h_own_run _ _ _ _ _ _ _ Hx1 Hq1) as (b1 & o1 & He1 & Hn1 & Hob1 & (Hno1 & is1 & His1 & Hm1 & _) & Hb1 & Hv1 & _).
  assert (read_arr h3 (hal_x2 s) = Some (al_x2 (hal_st s))) as Hx2' by (eapply read_arr_prefix; [apply He1|done]).
  destruct (h_own_run _ _ _ _ _ _ _ Hx2' Hq2) as (b2 & o2 & He2 & Hn2 & Hob2 & (Hno2 & is2 & His2 & Hm2 & _) & Hb2 & Hv2 & Hls2).
  simpl. apply separate_cons; [|apply separate_short; simpl; lia]. intros q ->%elem_of_list_singleton.
  pose proof (lookup_lt_Some _ _ _ Hob1) as Hlt1. pose proof (lookup_lt_Some _ _ _ His1) as Hlo1.
  assert (a_buf b1 <> a_buf b2) as Hbuf.
  { apply read_arr_lt in Hx2 as Hl2. destruct (al_view2 (hal_st s)); [lia|]. subst b2. destruct (al_view1 (hal_st s)); [lia|]. subst b1. by apply Hne. }
  assert (forall i, i ∈ is1 -> i < length (h_lists h3)) as Hl1.
  { intros i [k Hk]%elem_of_list_lookup. apply mapM_Some in Hm1. destruct (Forall2_lookup_l _ _ _ _ _ Hm1 Hk) as (l & _ & Hl). by eapply lookup_lt_Some. }
  pose proof He2 as (_ & _ & Ho2 & Hp2). intros x (ob1 & Hob1' & Hpx1) (ob2 & Hob2' & Hpx2).
  rewrite Hob2 in Hob2'. injection Hob2' as <-. rewrite (prefix_lookup_old _ _ _ _ Hp2 Hob1) in Hob1'. injection Hob1' as <-.
  pose proof (prefix_lookup_old _ _ _ _ Ho2 His1) as His1'. simpl in *. specialize (Hls2 is2 His2). rewrite Forall_forall in Hls2.
  destruct Hpx1 as [-> |[-> |[(is & i & His & Hi & ->)|[-> |(i & Hi & ->)]]]];
    destruct Hpx2 as [E|[E|[(is' & i' & His' & Hi' & E)|[E|(i' & Hi' & E)]]]]; try discriminate E; injection E as E; simplify_eq; try lia.
  apply Hl1 in Hi. apply Hls2 in Hi'. lia.
Qed.

Definition several (c : call) : bool :=
  match c with CAlign _ _ _ _ | CAlignAxis _ _ _ | CSplit _ _ _ _ => true | _ => false end.
Lemma new_short r (o : option (nat * larry)) zs : new r = Ok (o, zs) -> length zs <= 1.
Proof. unfold new. destruct r; [|done]. intros [= <- <-]. simpl. lia. Qed.
Lemma inplace_short i r (o : option (nat * larry)) zs : inplace i r = Ok (o, zs) -> length zs <= 1.
Proof. unfold inplace. destruct r; [|done]. intros [= <- <-]. simpl. lia. Qed.
Lemma news_short r (o : option (nat * larry)) zs : news r = Ok (o, zs) -> (forall zs, r = Ok zs -> length zs <= 1) -> length zs <= 1.
Proof. unfold news. destruct r; [|done]. intros [= <- <-] H. by apply H. Qed.
Lemma out_short (r : res out) zs : (o ← r; Ok (out_larrys o)) = Ok zs -> length zs <= 1.
Proof. destruct r as [[|]|]; [..|done]; intros [= <-]; simpl; lia. Qed.
Lemma gres_short (r : res gres) zs : (o ← r; Ok (gres_larrys o)) = Ok zs -> length zs <= 1.
Proof. destruct r as [[| |]|]; [..|done]; intros [= <-]; simpl; lia. Qed.
Lemma single_result env c o zs : several c = false -> results env c = Ok (o, zs) -> length zs <= 1.
Proof.
  intros Hs H. destruct c; try discriminate Hs; unfold results in H; first [by eapply new_short|by eapply inplace_short|idtac];
    (eapply news_short; [exact H|]; intros zs' H'; unfold with1, with2 in H';
     repeat match type of H' with nth_larry _ _ ≫= _ = _ => apply bind_ok in H' as (? & _ & H') end;
     first [exact (out_short _ _ H')|exact (gres_short _ _ H')]).
Qed.
Lemma hexec_separate h ps env c h' rs : in_place c = None -> may_write c = false ->
  Forall2 (has h) ps env -> Forall valid env -> hexec ps c h = (h', Ok rs) -> separate h' (larrys_of rs).
Proof.
  intros Hi Hw Hps Hv H. pose proof (hexec_gives h ps env c Hi Hw Hps Hv) as Hg.
  destruct (several c) eqn:Hs.
  2:{ destruct (results env c) as [[o zs]|e] eqn:Hr; simpl in Hg.
      - destruct Hg as (h2 & rs2 & H2 & _ & Hz). rewrite H in H2. injection H2 as <- <-. apply separate_short.
        rewrite (Forall2_length _ _ _ Hz). by eapply single_result.
      - destruct Hg as (h2 & H2 & _). congruence. }
  clear Hg. destruct c; try discriminate Hs; unfold hexec in H.
  - destruct (ps !! i) as [p|] eqn:Hp; [|discriminate H]. erewrite bind_run in H by done.
    destruct (ps !! j) as [q|] eqn:Hq; [|discriminate H]. erewrite bind_run in H by done.
    destruct (Forall2_lookup_l _ _ _ _ _ Hps Hp) as (y & _ & [Hy _]). destruct (Forall2_lookup_l _ _ _ _ _ Hps Hq) as (z & _ & [Hz _]).
    exact (h_align_separate _ _ _ _ _ _ _ _ _ Hy Hz H).
  - pose proof (mapC_args h ps env is Hps Hv) as Ha. destruct (mapR (nth_larry env) is) as [ys|e].
    2:{ by erewrite bind_fail in H by exact Ha. }
    destruct Ha as (qs & Hqs & Hys & _). erewrite bind_run in H by exact Hqs. unfold h_align_axis in H.
    erewrite bind_run in H by (apply mapC_value; eapply Forall2_impl; [exact Hys|]; by intros ?? [??]).
    set (r := mapR _ _) in H. destruct r; [|discriminate H]. erewrite bind_run in H by done. case_decide; [discriminate H|].
    destruct (align_axis_label ys axis join) as [label|]; [|discriminate H]. erewrite bind_run in H by done.
    eapply align_axis_separate; [|exact H]. apply Forall_forall. intros [k q] Hkq. apply elem_of_zip_r in Hkq. simpl.
    apply elem_of_list_lookup in Hkq as [n Hn]. destruct (Forall2_lookup_l _ _ _ _ _ Hys Hn) as (y & _ & [Hy _]). by exists y.
  - destruct (ps !! i) as [p|] eqn:Hp; [|discriminate H]. erewrite bind_run in H by done.
    destruct (Forall2_lookup_l _ _ _ _ _ Hps Hp) as (y & _ & [Hy _]).
    pose proof (gives_h_take h p y (Z.of_nat <$> idx_train) axis Hy) as H1. unfold gives in H1.
    destruct (larry_take y (Z.of_nat <$> idx_train) axis) as [z1|e].
    2:{ destruct H1 as (h1 & H1 & He1). by erewrite bind_fail in H by exact H1. }
    destruct H1 as (h1 & q1 & H1 & He1 & Hq1). erewrite bind_run in H by exact H1.
    pose proof (gives_h_take h1 p y (Z.of_nat <$> idx_test) axis (read_larry_ext _ _ _ _ He1 Hy)) as H2. unfold gives in H2.
    destruct (larry_take y (Z.of_nat <$> idx_test) axis) as [z2|e].
    2:{ destruct H2 as (h2 & H2 & He2). by erewrite bind_fail in H by exact H2. }
    destruct H2 as (h2 & q2 & H2 & He2 & Hq2). erewrite bind_run in H by exact H2. injection H as <- <-. simpl.
    apply separate_cons; [|apply separate_short; simpl; lia]. intros q ->%elem_of_list_singleton.
    eapply own_apart; [exact He2|exact Hq1|by eapply take_own].
Qed.

(** * Programs *)

Lemma results_new env c o zs : in_place c = None -> results env c = Ok (o, zs) -> o = None.
Proof.
  intros Hi H. destruct c; try discriminate Hi; unfold results, new, news in H; apply bind_ok in H as (? & _ & H); by injection H as <- _.
Qed.
(** Programs of calls that do not write to what is there. *)
Lemma hrun_gives prog : forall h ps env, Forall (fun c => in_place c = None /\ may_write c = false) prog ->
  Forall2 (has h) ps env -> Forall valid env -> fine_run env prog ->
  match run env prog with
  | Ok env' => exists h' ps', hrun ps prog h = (h', Ok ps') /\ Forall2 (has h') ps' env'
  | Err e => exists h', hrun ps prog h = (h', Err e)
  end.
Proof.
  induction prog as [|c prog IH]; intros h ps env Hp Hps Hv Hf; [by exists h, ps|].
  apply Forall_cons in Hp as [[Hi Hw] Hp]. pose proof Hf as [Hc Hf'].
  pose proof (hexec_gives h ps env c Hi Hw Hps Hv) as Hg. unfold run. simpl foldM. fold (run).
  destruct (exec env c) as [env1|e] eqn:Hx; pose proof Hx as He; unfold exec in He; destruct (results env c) as [[o zs]|e'] eqn:Hr; simpl in He, Hg; try discriminate He.
  - destruct Hg as (h1 & rs & H1 & He1 & Hz). pose proof (results_new _ _ _ _ Hi Hr) as ->. simpl in He. injection He as <-.
    cbn [mbind res_bind].
    assert (Forall2 (has h1) (ps ++ larrys_of rs) (env ++ zs)) as Hps1.
    { apply Forall2_app; [|done]. eapply Forall2_impl; [exact Hps|]. intros p y. by apply has_ext. }
    specialize (IH h1 _ _ Hp Hps1 (exec_valid _ _ _ Hv Hc Hx) (Hf' _ eq_refl)). unfold run in IH.
    destruct (foldM exec (env ++ zs) prog) as [env'|e]; cbn [hrun].
    + destruct IH as (h2 & ps' & H2 & Hps'). exists h2, ps'. split; [|done]. by erewrite bind_run by exact H1.
    + destruct IH as (h2 & H2). exists h2. by erewrite bind_run by exact H1.
  - injection He as <-. destruct Hg as (h1 & H1 & He1). exists h1. cbn [hrun]. by erewrite bind_fail by exact H1.
Qed.
Lemma tidy_same h h' p : h_objs h' = h_objs h -> h_outers h' = h_outers h -> tidy h p -> tidy h' p.
Proof. intros Ho Hu (ob & is & H1 & H2 & H3). exists ob, is. by rewrite Ho, Hu. Qed.
Lemma part_of_same h h' p x : h_objs h' = h_objs h -> h_outers h' = h_outers h -> part_of h' p x <-> part_of h p x.
Proof. intros Ho Hu. unfold part_of. by rewrite Ho, Hu. Qed.
(** Programs on larrys that share nothing, without calls whose results share
    memory with their arguments. *)
Lemma hrun_separate prog : forall h ps env, Forall (fun c => may_share c = false /\ may_write c = false) prog ->
  Forall2 (has h) ps env -> Forall valid env -> separate h ps -> fine_run env prog ->
  match run env prog with
  | Ok env' => exists h' ps', hrun ps prog h = (h', Ok ps') /\ Forall2 (has h') ps' env' /\ separate h' ps'
  | Err e => exists h', hrun ps prog h = (h', Err e)
  end.
Proof.
  induction prog as [|c prog IH]; intros h ps env Hp Hps Hv Hsep Hf; [by exists h, ps|].
  apply Forall_cons in Hp as [[Hs Hw] Hp]. pose proof Hf as [Hc Hf']. unfold run. simpl foldM.
  assert (match exec env c with
    | Ok env1 => exists h1 rs, hexec ps c h = (h1, Ok rs) /\ Forall2 (has h1) (ps ++ larrys_of rs) env1 /\ separate h1 (ps ++ larrys_of rs)
    | Err e => exists h1, hexec ps c h = (h1, Err e)
    end) as Hstep.
  { unfold exec. destruct (in_place c) as [i|] eqn:Hi.
    - pose proof (hexec_becomes h ps env c i Hi Hps Hv) as Hb. destruct (results env c) as [[o zs]|e]; [|done]. cbn [mbind res_bind].
      destruct Hb as (z & p & h1 & -> & -> & Hpi & H1 & Hz). exists h1, []. split; [done|]. simpl. rewrite !app_nil_r.
      destruct (hexec_in_place _ _ _ _ _ _ Hi H1) as [[Hno _]|(p' & Hp' & Honly & Hob & Hou)]; [congruence|].
      rewrite Hpi in Hp'. injection Hp' as <-. split.
      + apply Forall2_same_length_lookup_2; [by rewrite insert_length, (Forall2_length _ _ _ Hps)|].
        intros k q y Hq Hy. destruct (decide (k = i)) as [->|Hne].
        * rewrite Hpi in Hq. injection Hq as <-. rewrite list_lookup_insert in Hy; [by injection Hy as <-|].
          rewrite <-(Forall2_length _ _ _ Hps). by eapply lookup_lt_Some.
        * rewrite list_lookup_insert_ne in Hy by done. rewrite Forall2_lookup in Hps. specialize (Hps k). rewrite Hq, Hy in Hps.
          inversion Hps as [? ? [Hr Ht]|]; subst. split; [|by eapply tidy_same].
          eapply read_larry_same; [|exact Hr]. intros x Hx. apply Honly. intros Hx'. by apply (Hsep i k p q ltac:(done) Hpi Hq x).
      + intros k j q r Hne Hq Hr x Hx Hy. apply (Hsep k j q r Hne Hq Hr x); by rewrite <-part_of_same.
    - pose proof (hexec_gives h ps env c Hi Hw Hps Hv) as Hg. destruct (results env c) as [[o zs]|e] eqn:Hr; cbn [mbind res_bind] in *.
      2:{ destruct Hg as (h1 & H1 & _). by exists h1. }
      pose proof (results_new _ _ _ _ Hi Hr) as ->. destruct Hg as (h1 & rs & H1 & He1 & Hz). exists h1, rs. split; [done|]. simpl fst; simpl snd. simpl changed.
      split; [apply Forall2_app; [|done]; eapply Forall2_impl; [exact Hps|]; intros p y; by apply has_ext|].
      assert (Forall (own h h1) rs) as Hown.
      { eapply hexec_own; [exact Hi|exact Hw|exact Hs| |exact H1]. apply Forall_forall. intros p [k Hk]%elem_of_list_lookup.
        destruct (Forall2_lookup_l _ _ _ _ _ Hps Hk) as (y & Hy & [Hpy _]). exists y. split; [done|]. by eapply Forall_lookup_1 in Hv. }
      apply separate_app.
      + intros k j q r Hne Hq Hrr. destruct (Forall2_lookup_l _ _ _ _ _ Hps Hq) as (y & _ & Hqy).
        destruct (Forall2_lookup_l _ _ _ _ _ Hps Hrr) as (y' & _ & Hry). eapply apart_ext; [exact He1|exact Hqy|exact Hry|]. by eapply Hsep.
      + exact (hexec_separate h ps env c h1 rs Hi Hw Hps Hv H1).
      + intros p q [k Hk]%elem_of_list_lookup Hq. destruct (Forall2_lookup_l _ _ _ _ _ Hps Hk) as (y & _ & Hpy).
        eapply own_apart; [exact He1|exact Hpy|]. rewrite Forall_forall in Hown. apply Hown.
        unfold larrys_of in Hq. apply elem_of_list_omap in Hq as (r & Hr' & Hq). destruct r; try discriminate Hq. by injection Hq as ->. }
  destruct (exec env c) as [env1|e] eqn:Hx; cbn [mbind res_bind].
  - destruct Hstep as (h1 & rs & H1 & Hps1 & Hsep1).
    specialize (IH h1 _ _ Hp Hps1 (exec_valid _ _ _ Hv Hc Hx) Hsep1 (Hf' _ eq_refl)). unfold run in IH. 
    destruct (foldM exec env1 prog) as [env'|e]; cbn [hrun].
    + destruct IH as (h2 & ps' & H2 & Hps'). exists h2, ps'. split; [|done]. by erewrite bind_run by exact H1.
    + destruct IH as (h2 & H2). exists h2. by erewrite bind_run by exact H1.
  - destruct Hstep as (h1 & H1). exists h1. cbn [hrun]. by erewrite bind_fail by exact H1.
Qed.

(** * New larrys *)
Lemma mapC_new_gives ys : forall h, exists h', mapC h_new ys h = (h', Ok (seq (length (h_objs h)) (length ys))) /\ ext h h' /\
  Forall2 (has h') (seq (length (h_objs h)) (length ys)) ys /\ separate h' (seq (length (h_objs h)) (length ys)) /\
  Forall (fun q => own h h' (HLarry q)) (seq (length (h_objs h)) (length ys)).
Proof.
  induction ys as [|y ys IH]; intros h.
  - exists h. split_and!; [done|apply ext_refl|constructor|apply separate_nil|constructor].
  - pose proof (gives_h_new h y) as (h1 & q & H1 & He1 & Hq). pose proof (h_new_own _ _ _ _ H1) as Ho.
    pose proof H1 as H1'. rewrite h_new_run in H1'. injection H1' as Hh1 <-.
    assert (length (h_objs h1) = S (length (h_objs h))) as Hl by (rewrite <-Hh1; unfold added; simpl; rewrite app_length; simpl; lia).
    destruct (IH h1) as (h2 & H2 & He2 & Hz & Hs & Hos). rewrite Hl in *. exists h2. simpl. split_and!.
    + erewrite bind_run by exact H1. by erewrite bind_run by exact H2.
    + by eapply ext_trans.
    + constructor; [by eapply has_ext|done].
    + apply separate_cons; [|done]. intros r Hr. eapply own_apart; [exact He2|exact Hq|]. rewrite Forall_forall in Hos. by apply Hos.
    + constructor; [by eapply own_later|]. eapply Forall_impl; [exact Hos|]. intros r. by apply own_weak.
Qed.
