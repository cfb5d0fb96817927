(** Proofs about copies and references. *)
From Verif Require Export SpecRefs RefineFacts TestingFacts.

(** * The data *)
Lemma ld_x_run h p ob : h_objs h !! p = Some ob -> ld_x p h = (h, Ok (o_x ob)).
Proof. intros H. unfold ld_x, look. by rewrite H. Qed.
Lemma load_run h a x : read_arr h a = Some x -> Heap.load a h = (h, Ok x).
Proof. intros H. unfold Heap.load, look. by rewrite H. Qed.
Lemma copyx_run h p y : read_larry h p = Some y ->
  h_copyx p h = (grow h [buf_of (lx y)] [] [] [], Ok (RefineFacts.whole (length (h_bufs h)) (lx y))).
Proof.
  intros (ob & is & Hob & Hx & Ho & Hl)%read_larry_Some. unfold h_copyx.
  rewrite (bind_run _ _ _ _ _ (ld_x_run _ _ _ Hob)), (bind_run _ _ _ _ _ (load_run _ _ _ Hx)). apply alloc_run.
Qed.
Lemma whole_own h x : own h (grow h [buf_of x] [] [] []) (HNd (RefineFacts.whole (length (h_bufs h)) x)).
Proof.
  intros z [-> |(i & Hi & ->)]; simpl; rewrite lookup_ge_None_2 by lia; done.
Qed.
Lemma getx_copy h p y : read_larry h p = Some y -> exists h' a, h_getx p true h = (h', Ok a) /\ h_copyx p h = (h', Ok a) /\
  unchanged h h' /\ own h h' (HNd a) /\ read_arr h' a = Some (lx y).
Proof.
  intros Hy. eexists _, _. unfold h_getx. split; [by apply copyx_run|]. split; [by apply copyx_run|]. split; [apply ext_unchanged, grow_ext|].
  split; [apply whole_own|]. apply read_whole. simpl. by rewrite lookup_app_r, Nat.sub_diag by lia.
Qed.
Lemma getx_ref h p y : read_larry h p = Some y -> exists ob, h_objs h !! p = Some ob /\
  h_getx p false h = (h, Ok (o_x ob)) /\ h_A p h = (h, Ok (o_x ob)) /\ read_arr h (o_x ob) = Some (lx y).
Proof.
  intros (ob & is & Hob & Hx & Ho & Hl)%read_larry_Some. exists ob. split; [done|]. unfold h_getx, h_A. by rewrite (ld_x_run _ _ _ Hob).
Qed.
(** Writing to what was returned. *)
Lemma getx_ref_write h p y a x : has h p y -> valid y -> h_getx p false h = (h, Ok a) ->
  nd_dtype x = ldtype y -> nd_shape x = lshape y -> nda_wf x ->
  exists h2, write a x h = (h2, Ok ()) /\ read_larry h2 p = Some (Larry x (llabel y)).
Proof.
  intros [(ob & is & Hob & Hx & Ho & Hl)%read_larry_Some (ob' & is' & Hob' & Ho' & Hnd & Hnd')] Hv Hg Ht Hs Hw.
  unfold h_getx in Hg. rewrite (ld_x_run _ _ _ Hob) in Hg. injection Hg as <-. assert (ob' = ob) as -> by congruence.
  assert (Hlen : length (data (nd_arr x)) = length (data (nd_arr (lx y)))).
  { destruct Hw as [Hw _]. pose proof (valid_wf _ Hv) as Hwy. unfold arr_wf in Hw, Hwy. etrans; [exact Hw|]. etrans; [|symmetry; exact Hwy]. exact (f_equal _ Hs). }
  destruct (write_read h (o_x ob) x (lx y) Hx Hnd Ht Hs Hlen) as (d & h2 & He & -> & Hr). eexists. split; [exact He|].
  apply read_larry_Some. by exists ob, is.
Qed.
Lemma getx_copy_write h p y q z a h' x h2 r : read_larry h p = Some y -> read_larry h q = Some z -> h_getx p true h = (h', Ok a) ->
  write a x h' = (h2, r) -> read_larry h2 q = Some z.
Proof.
  intros Hy Hz Hg Hw. destruct (getx_copy h p y Hy) as (h1 & a1 & H1 & _ & Hun & Hown & _). assert (h1 = h') as -> by congruence. assert (a1 = a) as -> by congruence.
  assert (Hz' : read_larry h' q = Some z).
  { apply (read_larry_same h h'); [|done]. intros t Ht. destruct (part_content h q z t Hz Ht) as [c Hc]. rewrite Hc. by apply Hun. }
  apply (read_larry_same h h2); [|done]. intros t Ht. destruct (part_content h q z t Hz Ht) as [c Hc].
  rewrite (write_only _ _ _ _ _ Hw t); [rewrite Hc; by apply Hun|]. intros Ha. specialize (Hown t Ha). congruence.
Qed.

(** * The labels *)
Lemma getlabel_run h p y axis copy : read_larry h p = Some y -> valid y ->
  (forall ax, axis_is y axis ax -> exists i l, list_at h p ax i /\ llabel y !! ax = Some l /\ h_lists h !! i = Some l /\
     h_getlabel p axis copy h = if copy then (grow h [] [l] [] [], Ok (length (h_lists h))) else (h, Ok i)) /\
  ((forall ax, ~ axis_is y axis ax) -> h_getlabel p axis copy h = (h, Err IndexError)).
Proof.
  intros Hy Hv. pose proof Hy as (ob & is & Hob & Hx & Ho & Hl)%read_larry_Some.
  assert (Hlen : length is = length (llabel y)) by (by apply mapM_length in Hl).
  assert (Hn : lndim y = length (llabel y)) by (symmetry; by apply valid_ndim).
  assert (He : h_getlabel p axis copy h = (if decide (Z.of_nat (lndim y) <= axis)%Z then (h, Err IndexError) else
    (i ← lift (of_opt IndexError (py_get is axis)); if copy then l ← get_list i; new_list l else ret i) h)).
  { unfold h_getlabel. rewrite (bind_run (value p) _ h h y) by (unfold value, look; by rewrite Hy).
    rewrite (bind_run (ld_label p) _ h h (o_label ob)) by (unfold ld_label, look; by rewrite Hob).
    rewrite (bind_run (get_outer (o_label ob)) _ h h is) by (unfold get_outer, look; by rewrite Ho).
    destruct (decide _); done. }
  rewrite He. split.
  - intros ax Hax. pose proof Hax as [Hlt Hz]. rewrite decide_False by lia.
    destruct (lookup_lt_is_Some_2 is ax ltac:(lia)) as [i Hi]. apply mapM_Some in Hl. destruct (Forall2_lookup_l _ _ _ _ _ Hl Hi) as (l & Hl1 & Hl2).
    exists i, l. split; [by exists ob, is|]. split; [done|]. split; [done|].
    assert (py_get is axis = Some i) as Hg.
    { unfold py_get. rewrite Hlen, (proj2 (py_index_Some _ _ ax)); done. }
    rewrite Hg. cbn [of_opt]. rewrite (bind_run (lift (Ok i)) _ h h i) by done. destruct copy; [|done].
    rewrite (bind_run (get_list i) _ h h l) by (unfold get_list, look; cbn in Hl2; by rewrite Hl2). apply new_list_run.
  - intros Hno. destruct (decide _); [done|]. assert (py_get is axis = None) as Hg.
    { unfold py_get. destruct (py_index (length is) axis) as [ax|] eqn:E; [|done]. rewrite Hlen in E. exfalso.
      apply (Hno ax). apply py_index_Some in E. exact E. }
    rewrite Hg. done.
Qed.
Lemma getlabel_ref h p y axis ax : read_larry h p = Some y -> valid y -> axis_is y axis ax ->
  exists i, list_at h p ax i /\ h_getlabel p axis false h = (h, Ok i).
Proof. intros Hy Hv Hax. destruct (proj1 (getlabel_run h p y axis false Hy Hv) ax Hax) as (i & l & H & _ & _ & E). by exists i. Qed.
Lemma getlabel_copy h p y axis ax : read_larry h p = Some y -> valid y -> axis_is y axis ax ->
  exists h' j l, h_getlabel p axis true h = (h', Ok j) /\ unchanged h h' /\ content_of h (PList j) = None /\
    llabel y !! ax = Some l /\ content_of h' (PList j) = Some (CLabels l).
Proof.
  intros Hy Hv Hax. destruct (proj1 (getlabel_run h p y axis true Hy Hv) ax Hax) as (i & l & _ & Hl & _ & E).
  eexists _, _, l. split; [exact E|]. split; [apply ext_unchanged, grow_ext|].
  split; [simpl; by rewrite lookup_ge_None_2 by lia|]. split; [done|]. simpl. by rewrite lookup_app_r, Nat.sub_diag by lia.
Qed.
Lemma getlabel_error h p y axis copy : read_larry h p = Some y -> valid y ->
  (snd (h_getlabel p axis copy h) = Err IndexError <-> forall ax, ~ axis_is y axis ax) /\
  ((forall ax, ~ axis_is y axis ax) -> fst (h_getlabel p axis copy h) = h).
Proof.
  intros Hy Hv. destruct (getlabel_run h p y axis copy Hy Hv) as [H1 H2]. split; [|intros Hn; by rewrite (H2 Hn)]. split.
  - intros He ax Hax. destruct (H1 ax Hax) as (i & l & _ & _ & _ & E). rewrite E in He. by destruct copy.
  - intros Hn. by rewrite (H2 Hn).
Qed.
Lemma getlabel_pure y axis : valid y -> forall h p, read_larry h p = Some y ->
  match snd (h_getlabel p axis true h) with
  | Ok j => exists l, getlabel y axis = Ok l /\ content_of (fst (h_getlabel p axis true h)) (PList j) = Some (CLabels l)
  | Err e => getlabel y axis = Err e
  end.
Proof.
  intros Hv h p Hy. destruct (getlabel_run h p y axis true Hy Hv) as [H1 H2]. unfold getlabel.
  destruct (py_axis y axis) as [ax|e] eqn:E.
  - pose proof (proj1 (py_axis_is y axis ax) E) as Hax. destruct (H1 ax Hax) as (i & l & _ & Hl & _ & R). rewrite R. simpl.
    exists l. rewrite lookup_app_r, Nat.sub_diag by lia. split; [|done]. rewrite decide_False.
    + cbn [mbind res_bind]. by apply axis_label_ok.
    + destruct Hax as [? ?]. rewrite <-(valid_ndim _ Hv). lia.
  - rewrite H2; [|intros ax Hax; apply py_axis_is in Hax; congruence]. simpl. destruct (decide _); [done|]. cbn [mbind res_bind].
    unfold py_axis in E. destruct (py_index _ _); simpl in E; [done|]. by injection E as <-.
Qed.
Lemma copylabel_new h p y : read_larry h p = Some y -> exists h' o, copylabel p h = (h', Ok o) /\ unchanged h h' /\
  read_label h' o = Some (llabel y) /\ content_of h (POuter o) = None /\
  forall is i, h_outers h' !! o = Some is -> i ∈ is -> content_of h (PList i) = None.
Proof.
  intros Hy. eexists _, _. split; [by apply copylabel_run|]. split; [apply ext_unchanged, grow_ext|].
  split; [|split].
  - unfold read_label. simpl. rewrite lookup_app_r, Nat.sub_diag by lia. simpl. apply read_fresh.
  - simpl. by rewrite lookup_ge_None_2 by lia.
  - intros is i. simpl. rewrite lookup_app_r, Nat.sub_diag by lia. simpl. intros [= <-] Hi. unfold fresh_lists in Hi.
    apply elem_of_seq in Hi. rewrite lookup_ge_None_2 by lia. done.
Qed.

(** * The old checks *)
Lemma checked_run f h p q y z : read_larry h p = Some y -> read_larry h q = Some z -> valid y -> valid z ->
  exists o1 o2 is1 is2, h_objs h !! p = Some o1 /\ h_objs h !! q = Some o2 /\
    h_outers h !! o_label o1 = Some is1 /\ h_outers h !! o_label o2 = Some is2 /\
    length is1 = lndim y /\ length is2 = lndim z /\
    checked f h p q = Some (if decide (lndim y = lndim z) then Ok (f (zip is1 is2)) else Err ValueError).
Proof.
  intros Hy Hz Hv Hw. pose proof Hy as (o1 & is1 & Ho1 & _ & Hi1 & Hl1)%read_larry_Some. pose proof Hz as (o2 & is2 & Ho2 & _ & Hi2 & Hl2)%read_larry_Some.
  exists o1, o2, is1, is2. split_and!; try done.
  - rewrite (mapM_length _ _ _ Hl1). by apply valid_ndim.
  - rewrite (mapM_length _ _ _ Hl2). by apply valid_ndim.
  - unfold checked. rewrite Hy, Hz. simpl. rewrite Ho1, Ho2. simpl. by rewrite Hi1, Hi2.
Qed.
Lemma checked_error f h p q y z : read_larry h p = Some y -> read_larry h q = Some z -> valid y -> valid z ->
  (checked f h p q = Some (Err ValueError) <-> lndim y <> lndim z) /\ (lndim y = lndim z -> exists b, checked f h p q = Some (Ok b)).
Proof.
  intros Hy Hz Hv Hw. destruct (checked_run f h p q y z Hy Hz Hv Hw) as (o1 & o2 & is1 & is2 & _ & _ & _ & _ & _ & _ & ->).
  destruct (decide _); naive_solver.
Qed.
Lemma refs_error same h p q y z : read_larry h p = Some y -> read_larry h q = Some z -> valid y -> valid z ->
  (noreference same h p q = Some (Err ValueError) <-> lndim y <> lndim z) /\
  (nocopy same h p q = Some (Err ValueError) <-> lndim y <> lndim z) /\
  (lndim y = lndim z -> exists b c, noreference same h p q = Some (Ok b) /\ nocopy same h p q = Some (Ok c)).
Proof.
  intros Hy Hz Hv Hw. pose proof (fun f => checked_error f h p q y z Hy Hz Hv Hw) as H. split; [apply H|]. split; [apply H|].
  intros E. assert (Hok : forall f, exists b, checked f h p q = Some (Ok b)) by (intros f; by apply H).
  destruct (Hok (fun ps => negb same && forallb (fun ij => bool_decide (ij.1 <> ij.2)) ps)) as [b Hb].
  destruct (Hok (fun ps => same && forallb (fun ij => bool_decide (ij.1 = ij.2)) ps)) as [c Hc]. by exists b, c.
Qed.
Lemma noreference_iff same h p q y z : read_larry h p = Some y -> read_larry h q = Some z -> valid y -> valid z ->
  (noreference same h p q = Some (Ok true) <->
   lndim y = lndim z /\ same = false /\ forall ax i, list_at h p ax i -> ~ list_at h q ax i).
Proof.
  intros Hy Hz Hv Hw. unfold noreference.
  match goal with |- checked ?f _ _ _ = _ <-> _ => destruct (checked_run f h p q y z Hy Hz Hv Hw) as (o1 & o2 & is1 & is2 & Ho1 & Ho2 & Hi1 & Hi2 & L1 & L2 & ->) end.
  split.
  - destruct (decide _) as [E|]; [|done]. intros [= [Hs Hf]%andb_true_iff]. split; [done|]. split; [by destruct same|].
    intros ax i (o1' & is1' & A1 & A2 & A3) (o2' & is2' & B1 & B2 & B3). simplify_eq. rewrite forallb_forall in Hf.
    specialize (Hf (i, i)). rewrite <-elem_of_list_In in Hf.
    assert ((i, i) ∈ zip is1 is2) as Hin. { apply elem_of_list_lookup. exists ax. rewrite lookup_zip_with, A3. simpl. by rewrite B3. }
    specialize (Hf Hin). by apply bool_decide_eq_true in Hf.
  - intros (E & -> & Hf). rewrite decide_True by done. do 2 f_equal. simpl. apply forallb_forall. intros [i j]. rewrite <-elem_of_list_In.
    intros [ax Hax]%elem_of_list_lookup. apply bool_decide_eq_true. simpl. intros ->. rewrite lookup_zip_with in Hax.
    destruct (is1 !! ax) as [i'|] eqn:A; [|done]. simpl in Hax. destruct (is2 !! ax) as [j'|] eqn:B; [|done]. simplify_eq/=.
    apply (Hf ax j); [by exists o1, is1|by exists o2, is2].
Qed.
Lemma nocopy_iff same h p q y z : read_larry h p = Some y -> read_larry h q = Some z -> valid y -> valid z ->
  (nocopy same h p q = Some (Ok true) <->
   lndim y = lndim z /\ same = true /\ forall ax i, list_at h p ax i <-> list_at h q ax i).
Proof.
  intros Hy Hz Hv Hw. unfold nocopy.
  match goal with |- checked ?f _ _ _ = _ <-> _ => destruct (checked_run f h p q y z Hy Hz Hv Hw) as (o1 & o2 & is1 & is2 & Ho1 & Ho2 & Hi1 & Hi2 & L1 & L2 & ->) end.
  split.
  - destruct (decide _) as [E|]; [|done]. intros [= [Hs Hf]%andb_true_iff]. split; [done|]. split; [done|].
    assert (is1 = is2) as ->.
    { apply list_eq. intros ax. destruct (is1 !! ax) as [i|] eqn:A.
      - destruct (lookup_lt_is_Some_2 is2 ax) as [j B]; [apply lookup_lt_Some in A; lia|]. rewrite B.
        rewrite forallb_forall in Hf. specialize (Hf (i, j)). rewrite <-elem_of_list_In in Hf.
        assert ((i, j) ∈ zip is1 is2) as Hin. { apply elem_of_list_lookup. exists ax. rewrite lookup_zip_with, A. simpl. by rewrite B. }
        specialize (Hf Hin). apply bool_decide_eq_true in Hf. simpl in Hf. by subst.
      - symmetry. apply lookup_ge_None_2. apply lookup_ge_None_1 in A. lia. }
    intros ax i. split; intros (o' & is' & A1 & A2 & A3); simplify_eq; [by exists o2, is2|by exists o1, is2].
  - intros (E & -> & Hf). rewrite decide_True by done. do 2 f_equal. simpl. apply forallb_forall. intros [i j]. rewrite <-elem_of_list_In.
    intros [ax Hax]%elem_of_list_lookup. apply bool_decide_eq_true. simpl. rewrite lookup_zip_with in Hax.
    destruct (is1 !! ax) as [i'|] eqn:A; [|done]. simpl in Hax. destruct (is2 !! ax) as [j'|] eqn:B; [|done]. simplify_eq/=.
    destruct (proj1 (Hf ax i)) as (o' & is' & B1 & B2 & B3); [by exists o1, is1|]. simplify_eq. done.
Qed.

Lemma apart_noreference same h p q y z : read_larry h p = Some y -> read_larry h q = Some z -> valid y -> valid z ->
  identity h p q same -> lndim y = lndim z -> apart h p q -> noreference same h p q = Some (Ok true).
Proof.
  intros Hy Hz Hv Hw [Hid _] E Ha. apply (noreference_iff same h p q y z); try done.
  pose proof Hy as (o1 & is1 & Ho1 & _ & Hi1 & Hl1)%read_larry_Some. pose proof Hz as (o2 & is2 & Ho2 & _ & Hi2 & Hl2)%read_larry_Some.
  split; [done|]. split.
  - destruct same; [|done]. specialize (Hid eq_refl). rewrite Ho1, Ho2 in Hid. simpl in Hid. injection Hid as Hid. exfalso.
    apply (Ha (PBuf (a_buf (o_x o1)))); [exists o1|exists o2]; (split; [done|]); do 3 right; left; [done|by rewrite Hid].
  - intros ax i (o1' & is1' & A1 & A2 & A3) (o2' & is2' & B1 & B2 & B3). simplify_eq.
    apply (Ha (PList i)); [exists o1|exists o2]; (split; [done|]); right; right; left.
    + exists is1, i. split_and!; [done|by eapply elem_of_list_lookup_2|done].
    + exists is2, i. split_and!; [done|by eapply elem_of_list_lookup_2|done].
Qed.
Lemma nocopy_same same h p q y z : read_larry h p = Some y -> read_larry h q = Some z -> valid y -> valid z -> identity h p q same ->
  nocopy same h p q = Some (Ok true) -> y = z /\
  forall x, part_of h p x -> x = PObj p \/ (exists o, x = POuter o) \/ part_of h q x.
Proof.
  intros Hy Hz Hv Hw [Hid _] Hn. apply (nocopy_iff same h p q y z Hy Hz Hv Hw) in Hn as (E & Hs & Hf). specialize (Hid Hs).
  pose proof Hy as (o1 & is1 & Ho1 & Hx1 & Hi1 & Hl1)%read_larry_Some. pose proof Hz as (o2 & is2 & Ho2 & Hx2 & Hi2 & Hl2)%read_larry_Some.
  rewrite Ho1, Ho2 in Hid. simpl in Hid. injection Hid as Hid.
  assert (is1 = is2) as ->.
  { apply list_eq. intros ax. destruct (is1 !! ax) as [i|] eqn:A.
    - destruct (proj1 (Hf ax i)) as (o' & is' & B1 & B2 & B3); [by exists o1, is1|]. by simplify_eq.
    - destruct (is2 !! ax) as [j|] eqn:B; [|done]. destruct (proj2 (Hf ax j)) as (o' & is' & B1 & B2 & B3); [by exists o2, is2|]. by simplify_eq. }
  split.
  - destruct y, z. simpl in *. rewrite Hid in Hx1. congruence.
  - intros x (ob & Hob & [-> |[-> |[(is & i & His & Hin & ->)|Harr]]]); simplify_eq; [by left|by right; left; eexists| |]; right; right; exists o2; (split; [done|]).
    + right; right; left. by exists is2, i.
    + do 3 right. by rewrite <-Hid.
Qed.
Lemma refs_self same h p y : read_larry h p = Some y -> valid y -> identity h p p same ->
  noreference same h p p = Some (Ok false) /\ nocopy same h p p = Some (Ok true).
Proof.
  intros Hy Hv [_ Hid]. specialize (Hid eq_refl) as ->. split; [|by apply (nocopy_iff true h p p y y)].
  destruct (refs_error true h p p y y Hy Hy Hv Hv) as (_ & _ & He). destruct (He eq_refl) as ([] & _ & Hb & _); [|done].
  apply (noreference_iff true h p p y y Hy Hy Hv Hv) in Hb as (_ & ? & _). done.
Qed.
Lemma calls_apart h ps c h' rs q z p y : in_place c = None -> may_write c = false -> may_share c = false ->
  Forall (fun p => exists y, read_larry h p = Some y /\ valid y) ps ->
  hexec ps c h = (h', Ok rs) -> HLarry q ∈ rs -> read_larry h' q = Some z -> read_larry h p = Some y ->
  read_larry h' p = Some y /\ apart h' q p.
Proof.
  intros Hi Hw Hs Hps He Hq Hz Hy.
  pose proof (hexec_own h ps c h' rs Hi Hw Hs Hps He) as Hown. rewrite Forall_forall in Hown. specialize (Hown _ Hq).
  pose proof (hexec_read h ps c h' (Ok rs) p y Hi Hw He Hy) as Hy'. split; [done|].
  pose proof (hexec_unchanged h ps c h' (Ok rs) Hi Hw He) as Hun.
  intros x Hx Hp. specialize (Hown x Hx).
  assert (Hp' : part_of h p x).
  { destruct Hp as (ob & Ho & Hcase). unfold read_larry in Hy. destruct (h_objs h !! p) as [ob0|] eqn:E0; [|done].
    assert (ob0 = ob) as ->. { pose proof (Hun (PObj p) (CLarry ob0)) as H. cbn in H. rewrite E0, Ho in H. specialize (H eq_refl). by injection H. }
    exists ob. split; [done|]. destruct Hcase as [-> |[-> |[(is & i & His & Hin & ->)|Harr]]]; [by left|by right; left| |by do 3 right].
    right; right; left. cbn in Hy. destruct (read_arr h (o_x ob)); [|done]. cbn in Hy. unfold read_label in Hy.
    destruct (h_outers h !! o_label ob) as [is0|] eqn:E1; [|done].
    assert (is0 = is) as ->. { pose proof (Hun (POuter (o_label ob)) (CLists is0)) as H. cbn in H. rewrite E1, His in H. specialize (H eq_refl). by injection H. }
    by exists is, i. }
  destruct (part_content h p y x Hy Hp') as [ct Hc]. congruence.
Qed.
Lemma calls_noreference same h ps c h' rs q z p y : in_place c = None -> may_write c = false -> may_share c = false ->
  Forall (fun p => exists y, read_larry h p = Some y /\ valid y) ps ->
  hexec ps c h = (h', Ok rs) -> HLarry q ∈ rs -> read_larry h' q = Some z -> valid z -> read_larry h p = Some y -> valid y ->
  identity h' q p same -> lndim z = lndim y -> noreference same h' q p = Some (Ok true).
Proof.
  intros Hi Hw Hs Hps He Hq Hz Hvz Hy Hvy Hid E. destruct (calls_apart h ps c h' rs q z p y Hi Hw Hs Hps He Hq Hz Hy) as [Hy' Ha].
  by apply (apart_noreference same h' q p z y).
Qed.
