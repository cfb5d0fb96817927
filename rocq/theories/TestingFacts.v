(** Proofs about the checks for copies. *)
From Verif Require Export Testing HeapFacts.

Lemma foldr_min p ps : foldr Nat.min p ps <= p /\ forall i, i ∈ ps -> foldr Nat.min p ps <= i.
Proof.
  induction ps as [|q ps IH]; cbn; [split; [lia|]; by intros i ?%elem_of_nil|]. destruct IH as [IH1 IH2].
  split; [lia|]. intros i [-> |Hi]%elem_of_cons; [lia|]. specialize (IH2 i Hi). lia.
Qed.
Lemma foldr_max p ps : p <= foldr Nat.max p ps /\ forall i, i ∈ ps -> i <= foldr Nat.max p ps.
Proof.
  induction ps as [|q ps IH]; cbn; [split; [lia|]; by intros i ?%elem_of_nil|]. destruct IH as [IH1 IH2].
  split; [lia|]. intros i [-> |Hi]%elem_of_cons; [lia|]. specialize (IH2 i Hi). lia.
Qed.
Lemma bounds_spec ps lo hi i : bounds ps = Some (lo, hi) -> i ∈ ps -> lo <= i <= hi.
Proof.
  destruct ps as [|p ps]; [done|]. intros [= <- <-]. pose proof (foldr_min p ps) as [A B]. pose proof (foldr_max p ps) as [C D].
  intros [-> |Hi]%elem_of_cons; [done|]. specialize (B i Hi). specialize (D i Hi). lia.
Qed.
Lemma share_cell a b i : i ∈ data (a_pos a) -> i ∈ data (a_pos b) -> a_buf a = a_buf b -> may_share_memory a b = true.
Proof.
  intros Ha Hb E. unfold may_share_memory. destruct (bounds (data (a_pos a))) as [[lo1 hi1]|] eqn:B1.
  2:{ destruct (data (a_pos a)); [by apply elem_of_nil in Ha|done]. }
  destruct (bounds (data (a_pos b))) as [[lo2 hi2]|] eqn:B2.
  2:{ destruct (data (a_pos b)); [by apply elem_of_nil in Hb|done]. }
  pose proof (bounds_spec _ _ _ _ B1 Ha). pose proof (bounds_spec _ _ _ _ B2 Hb).
  rewrite bool_decide_eq_true_2 by done. cbn. apply andb_true_iff. split; apply Nat.leb_le; lia.
Qed.
Lemma share_buf a b : may_share_memory a b = true -> a_buf a = a_buf b.
Proof.
  unfold may_share_memory. destruct (bounds _) as [[? ?]|]; [|done]. destruct (bounds _) as [[? ?]|]; [|done].
  intros [[H _]%andb_true_iff _]%andb_true_iff. by apply bool_decide_eq_true in H.
Qed.

Lemma complaints_nil d f ps : complaints d f ps = [] <-> d = false /\ Forall (fun ij => f ij = false) ps.
Proof.
  unfold complaints. split.
  - intros [Hd Ho]%app_eq_nil. split; [by destruct d|]. apply Forall_lookup. intros i ij Hi. destruct (f ij) eqn:E; [|done].
    exfalso. assert (AboutLabel i ∈ ([] : list complaint)) as Hn; [|by apply elem_of_nil in Hn]. rewrite <-Ho.
    apply elem_of_list_omap. exists (i, ij). split; [|cbn; by rewrite E]. apply elem_of_list_lookup. exists i. by rewrite list_lookup_imap, Hi.
  - intros [-> Hf]. cbn. apply elem_of_nil_inv. intros c (ip & Hip & Hc)%elem_of_list_omap.
    apply elem_of_list_lookup in Hip as [i Hi]. rewrite list_lookup_imap in Hi. destruct (ps !! i) as [ij|] eqn:E; [|done].
    injection Hi as <-. cbn in Hc. rewrite Forall_lookup in Hf. by rewrite (Hf i ij E) in Hc.
Qed.

Lemma iscopy_sound h p q : assert_iscopy h p q = Some [] ->
  (forall b i, part_of h p (PCell b i) -> ~ part_of h q (PCell b i)) /\
  forall o1 o2 is1 is2 ax i, h_objs h !! p = Some o1 -> h_objs h !! q = Some o2 ->
    h_outers h !! o_label o1 = Some is1 -> h_outers h !! o_label o2 = Some is2 ->
    is1 !! ax = Some i -> is2 !! ax <> Some i.
Proof.
  unfold assert_iscopy, label_pairs. destruct (h_objs h !! p) as [o1|] eqn:E1; [|done]. destruct (h_objs h !! q) as [o2|] eqn:E2; [|done]. cbn.
  destruct (h_outers h !! o_label o1) as [is1|] eqn:F1; [|done]. destruct (h_outers h !! o_label o2) as [is2|] eqn:F2; [|done]. cbn.
  intros [= [Hd Hf]%complaints_nil]. split.
  - intros b i (o1' & G1 & [|[|[(? & ? & _ & _ & [=])|[|(i1 & Hi1 & [= -> ->])]]]]) (o2' & G2 & [|[|[(? & ? & _ & _ & [=])|[|(i2 & Hi2 & [= Hb ->])]]]]); try done.
    simplify_eq. pose proof (share_cell _ _ _ Hi1 Hi2 Hb) as H. congruence.
  - intros o1' o2' is1' is2' ax i [= <-] [= <-] G1 G2 H1 H2. simplify_eq. rewrite Forall_lookup in Hf.
    specialize (Hf ax (i, i)). rewrite lookup_zip_with, H1 in Hf. cbn in Hf. rewrite H2 in Hf. specialize (Hf eq_refl).
    by apply bool_decide_eq_false in Hf.
Qed.

Lemma apart_iscopy h p q y z : read_larry h p = Some y -> read_larry h q = Some z -> apart h p q -> assert_iscopy h p q = Some [].
Proof.
  intros Hy Hz Ha. unfold assert_iscopy, label_pairs. unfold read_larry, read_label in Hy, Hz.
  destruct (h_objs h !! p) as [o1|] eqn:E1; [|done]. destruct (h_objs h !! q) as [o2|] eqn:E2; [|done]. cbn in *.
  destruct (read_arr h (o_x o1)); [|done]. destruct (read_arr h (o_x o2)); [|done]. cbn in *.
  destruct (h_outers h !! o_label o1) as [is1|] eqn:F1; [|done]. destruct (h_outers h !! o_label o2) as [is2|] eqn:F2; [|done]. cbn in *.
  f_equal. apply complaints_nil. split.
  - apply not_true_iff_false. intros H%share_buf. apply (Ha (PBuf (a_buf (o_x o1)))).
    + exists o1. split; [done|]. do 3 right. by left.
    + exists o2. split; [done|]. do 3 right. left. by rewrite H.
  - apply Forall_forall. intros [i j] Hij. cbn. apply bool_decide_eq_false. intros ->. apply (Ha (PList j)).
    + exists o1. split; [done|]. right; right; left. exists is1, j. split_and!; [done| |done]. by apply elem_of_zip_l in Hij.
    + exists o2. split; [done|]. right; right; left. exists is2, j. split_and!; [done| |done]. by apply elem_of_zip_r in Hij.
Qed.

Lemma part_content h p y x : read_larry h p = Some y -> part_of h p x -> is_Some (content_of h x).
Proof.
  intros Hy (ob & Ho & Hx). unfold read_larry in Hy. rewrite Ho in Hy. cbn in Hy.
  destruct (read_arr h (o_x ob)) as [a|] eqn:Ea; [|done]. cbn in Hy. destruct (read_label h (o_label ob)) as [l|] eqn:El; [|done].
  unfold read_arr in Ea. destruct (h_bufs h !! a_buf (o_x ob)) as [b|] eqn:Eb; [|done]. cbn in Ea.
  destruct (mapM _ _) as [vs|] eqn:Em; [|done]. unfold read_label in El. destruct (h_outers h !! o_label ob) as [is|] eqn:Eo; [|done]. cbn in El.
  destruct Hx as [-> |[-> |[(is' & i & His & Hi & ->)|[-> |(i & Hi & ->)]]]]; cbn.
  - rewrite Ho. eauto.
  - rewrite Eo. eauto.
  - simplify_eq. apply mapM_Some in El. apply elem_of_list_lookup in Hi as [k Hk].
    destruct (Forall2_lookup_l _ _ _ _ _ El Hk) as (l' & _ & Hl'). cbn in Hl'. rewrite Hl'. eauto.
  - rewrite Eb. eauto.
  - rewrite Eb. cbn. apply mapM_Some in Em. apply elem_of_list_lookup in Hi as [k Hk].
    destruct (Forall2_lookup_l _ _ _ _ _ Em Hk) as (v & _ & Hv). cbn in Hv. rewrite Hv. eauto.
Qed.

Lemma calls_iscopy h ps c h' rs q z p y : in_place c = None -> may_write c = false -> may_share c = false ->
  Forall (fun p => exists y, read_larry h p = Some y /\ valid y) ps ->
  hexec ps c h = (h', Ok rs) -> HLarry q ∈ rs -> read_larry h' q = Some z -> read_larry h p = Some y ->
  assert_iscopy h' q p = Some [] /\ assert_iscopy h' p q = Some [].
Proof.
  intros Hi Hw Hs Hps He Hq Hz Hy.
  pose proof (hexec_own h ps c h' rs Hi Hw Hs Hps He) as Hown. rewrite Forall_forall in Hown. specialize (Hown _ Hq).
  pose proof (hexec_read h ps c h' (Ok rs) p y Hi Hw He Hy) as Hy'.
  pose proof (hexec_unchanged h ps c h' (Ok rs) Hi Hw He) as Hun.
  assert (Hap : forall x, part_of h' q x -> ~ part_of h' p x).
  { intros x Hx Hp. specialize (Hown x Hx).
    assert (Hp' : part_of h p x).
    { destruct Hp as (ob & Ho & Hcase). unfold read_larry in Hy. destruct (h_objs h !! p) as [ob0|] eqn:E0; [|done].
      assert (ob0 = ob) as ->. { pose proof (Hun (PObj p) (CLarry ob0)) as H. cbn in H. rewrite E0, Ho in H. specialize (H eq_refl). by injection H. }
      exists ob. split; [done|]. destruct Hcase as [-> |[-> |[(is & i & His & Hin & ->)|Harr]]]; [by left|by right; left| |by do 3 right].
      right; right; left. cbn in Hy. destruct (read_arr h (o_x ob)); [|done]. cbn in Hy. unfold read_label in Hy.
      destruct (h_outers h !! o_label ob) as [is0|] eqn:E1; [|done].
      assert (is0 = is) as ->. { pose proof (Hun (POuter (o_label ob)) (CLists is0)) as H. cbn in H. rewrite E1, His in H. specialize (H eq_refl). by injection H. }
      by exists is, i. }
    destruct (part_content h p y x Hy Hp') as [ct Hc]. congruence. }
  split; (eapply apart_iscopy; [done|done|]); [exact Hap|]. intros x H1 H2. by apply (Hap x H2).
Qed.

Lemma share_sym a b : may_share_memory a b = may_share_memory b a.
Proof.
  unfold may_share_memory. destruct (bounds (data (a_pos a))) as [[lo1 hi1]|], (bounds (data (a_pos b))) as [[lo2 hi2]|]; [|done..].
  rewrite <-!andb_assoc, (andb_comm (lo1 <=? hi2)%nat). f_equal. apply bool_decide_ext. naive_solver.
Qed.
Lemma flip_zip (is1 is2 : list nat) : zip is2 is1 = (fun ij => (ij.2, ij.1)) <$> zip is1 is2.
Proof. revert is2. induction is1 as [|i is1 IH]; intros [|j is2]; cbn; [done..|]. by rewrite IH. Qed.
Lemma omap_fmap' {A B C} (f : A -> B) (g : B -> option C) (l : list A) : omap g (f <$> l) = omap (fun x => g (f x)) l.
Proof. induction l as [|x l IH]; cbn; [done|]. destruct (g (f x)); by rewrite IH. Qed.
Lemma omap_ext' {A B} (f g : A -> option B) (l : list A) : (forall x, f x = g x) -> omap f l = omap g l.
Proof. intros H. induction l as [|x l IH]; cbn; [done|]. rewrite H. destruct (g x); by rewrite IH. Qed.
Lemma complaints_flip d f g is1 is2 : (forall i j, f (i, j) = g (j, i)) -> complaints d f (zip is1 is2) = complaints d g (zip is2 is1).
Proof.
  intros Hfg. unfold complaints. f_equal. rewrite (flip_zip is1 is2). 
  replace (imap pair ((fun ij : nat * nat => (ij.2, ij.1)) <$> zip is1 is2))
    with ((fun ip : nat * (nat * nat) => (ip.1, (ip.2.2, ip.2.1))) <$> imap pair (zip is1 is2)).
  2:{ rewrite fmap_imap, imap_fmap. done. }
  rewrite omap_fmap'. apply omap_ext'. intros [k [i j]]. cbn. by rewrite Hfg.
Qed.
Lemma iscopy_sym h p q : assert_iscopy h p q = assert_iscopy h q p.
Proof.
  unfold assert_iscopy, label_pairs. destruct (h_objs h !! p) as [o1|], (h_objs h !! q) as [o2|]; [|done..]. cbn.
  destruct (h_outers h !! o_label o1) as [is1|], (h_outers h !! o_label o2) as [is2|]; [|done..]. cbn. f_equal.
  rewrite share_sym. apply complaints_flip. intros i j. cbn. apply bool_decide_ext. naive_solver.
Qed.
Lemma isview_sym h p q : assert_isview h p q = assert_isview h q p.
Proof.
  unfold assert_isview, label_pairs. destruct (h_objs h !! p) as [o1|], (h_objs h !! q) as [o2|]; [|done..]. cbn.
  destruct (h_outers h !! o_label o1) as [is1|], (h_outers h !! o_label o2) as [is2|]; [|done..]. cbn. f_equal.
  rewrite share_sym. apply complaints_flip. intros i j. cbn. apply bool_decide_ext. naive_solver.
Qed.

Lemma isview_sound h p q : assert_isview h p q = Some [] ->
  (exists b, part_of h p (PBuf b) /\ part_of h q (PBuf b)) /\
  forall o1 o2 is1 is2 ax i j, h_objs h !! p = Some o1 -> h_objs h !! q = Some o2 ->
    h_outers h !! o_label o1 = Some is1 -> h_outers h !! o_label o2 = Some is2 ->
    is1 !! ax = Some i -> is2 !! ax = Some j -> i = j.
Proof.
  unfold assert_isview, label_pairs. destruct (h_objs h !! p) as [o1|] eqn:E1; [|done]. destruct (h_objs h !! q) as [o2|] eqn:E2; [|done]. cbn.
  destruct (h_outers h !! o_label o1) as [is1|] eqn:F1; [|done]. destruct (h_outers h !! o_label o2) as [is2|] eqn:F2; [|done]. cbn.
  intros [= [Hd Hf]%complaints_nil]. apply negb_false_iff in Hd. split.
  - exists (a_buf (o_x o1)). split.
    + exists o1. split; [done|]. do 3 right. by left.
    + exists o2. split; [done|]. do 3 right. left. f_equal. by apply share_buf.
  - intros o1' o2' is1' is2' ax i j [= <-] [= <-] G1 G2 H1 H2. simplify_eq. rewrite Forall_lookup in Hf.
    specialize (Hf ax (i, j)). rewrite lookup_zip_with, H1 in Hf. cbn in Hf. rewrite H2 in Hf. specialize (Hf eq_refl).
    apply bool_decide_eq_false in Hf. by destruct (decide (i = j)).
Qed.
Lemma view_not_copy h p q : assert_isview h p q = Some [] -> exists cs, assert_iscopy h p q = Some (AboutData :: cs).
Proof.
  unfold assert_isview, assert_iscopy, label_pairs. destruct (h_objs h !! p) as [o1|]; [|done]. destruct (h_objs h !! q) as [o2|]; [|done]. cbn.
  destruct (h_outers h !! o_label o1) as [is1|]; [|done]. destruct (h_outers h !! o_label o2) as [is2|]; [|done]. cbn.
  intros [= [Hd Hf]%complaints_nil]. apply negb_false_iff in Hd. rewrite Hd. by eexists.
Qed.
