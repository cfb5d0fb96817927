(** Calls with several arguments, and calls whose result shares memory with the
    argument. *)
From Verif Require Export RefineOut.

(** * Lists of arguments *)

Lemma mapC_value h ps ys : Forall2 (fun p y => read_larry h p = Some y) ps ys -> mapC value ps h = (h, Ok ys).
Proof.
  induction 1 as [|p y ps ys Hp H IH]; [done|]. simpl. erewrite bind_run by (by apply value_ok). by erewrite bind_run by exact IH.
Qed.
Lemma gives_out_eq h m m' r : m h = m' h -> gives_out h m' r -> gives_out h m r.
Proof. intros H. unfold gives_out. by rewrite H. Qed.
Lemma gives_all {X Y} (f : X -> cmd nat) (g : Y -> res larry) h0 : forall h l k, ext h0 h ->
  Forall2 (fun x y => forall h, ext h0 h -> gives h (f x) (g y)) l k ->
  gives_out h (mapC (fun x => q ← f x; ret (HLarry q)) l) (mapR g k).
Proof.
  intros h l k He H. revert h He. induction H as [|x y l k Hx H IH]; intros h He; simpl.
  - exists h, []. split; [done|]. split; [apply ext_refl|constructor].
  - specialize (Hx h He). unfold gives in Hx. destruct (g y) as [z|e]; simpl.
    + destruct Hx as (h1 & q & Hq & He1 & Hz). specialize (IH h1 (ext_trans _ _ _ He He1)). unfold gives_out in IH.
      destruct (mapR g k) as [zs|e]; simpl.
      * destruct IH as (h2 & rs & Hrs & He2 & Hzs). exists h2, (HLarry q :: rs).
        split; [|split; [by eapply ext_trans|constructor; [by eapply has_ext|done]]].
        rewrite bind_assoc. by runs.
      * destruct IH as (h2 & Hrs & He2). exists h2. split; [|by eapply ext_trans]. rewrite bind_assoc. by fails.
    + destruct Hx as (h1 & Hq & He1). exists h1. split; [|done]. rewrite bind_assoc. by fails.
Qed.
Lemma gives_h_align_axis h ps ys axis j : Forall2 (fun p y => read_larry h p = Some y) ps ys ->
  gives_out h (h_align_axis ps axis j) (align_axis ys axis j).
Proof.
  intros Hps. pose proof (mapC_value h ps ys Hps) as Hval. unfold h_align_axis, align_axis.
  set (chk := mapR _ (zip (seq 0 (length ys)) ys)). destruct chk as [u|e] eqn:Hchk; unfold chk in Hchk; cbn [mbind res_bind].
  2:{ exists h. split; [by fails|apply ext_refl]. }
  destruct (decide (j = JSkip \/ j = JBad)) as [Hj|Hj].
  { exists h. split; [by runs|apply ext_refl]. }
  destruct (align_axis_label ys axis j) as [label|e] eqn:Hl; cbn [mbind res_bind].
  2:{ exists h. split; [by fails|apply ext_refl]. }
  assert (gives_out h (mapC (fun r => q ← (a ← lift (of_opt IndexError (axis !! r.1)); h_morph r.2 label a); ret (HLarry q)) (zip (seq 0 (length ps)) ps))
    (mapR (fun p => a ← of_opt IndexError (axis !! p.1); morph p.2 label a) (zip (seq 0 (length ys)) ys))) as Hg.
  { apply (gives_all _ _ h); [apply ext_refl|]. apply Forall2_length in Hps as Hlen. rewrite Hlen.
    apply Forall2_same_length_lookup_2; [by rewrite !zip_with_length, Hlen|].
    intros i [a p] [b y] Hp Hy h1 He1. apply lookup_zip_with_Some in Hp as (a' & p' & [= <- <-] & Ha & Hp).
    apply lookup_zip_with_Some in Hy as (b' & y' & [= <- <-] & Hb & Hy). rewrite Ha in Hb. injection Hb as <-. simpl.
    apply gives_lift. intros ax _. apply gives_h_morph. eapply read_larry_ext; [exact He1|].
    rewrite Forall2_lookup in Hps. specialize (Hps i). rewrite Hp, Hy in Hps. by inversion Hps. }
  revert Hg. apply gives_out_eq. runs.
  generalize (zip (seq 0 (length ps)) ps). intros l. generalize h. induction l as [|r l IH]; intros h0; [done|]. simpl.
  unfold mbind, cmd_bind. destruct (lift (of_opt IndexError (axis !! r.1)) h0) as [h1 [a|e]]; [|done].
  destruct (h_morph r.2 label a h1) as [h2 [q|e]]; [|done]. simpl. by rewrite IH.
Qed.
Lemma gives_h_split h p y tr te axis : read_larry h p = Some y ->
  gives_out h (q1 ← h_take p (Z.of_nat <$> tr) axis; q2 ← h_take p (Z.of_nat <$> te) axis; ret [HLarry q1; HLarry q2])
    (p ← split_data y tr te axis; Ok [p.1; p.2]).
Proof.
  intros Hp. unfold split_data. pose proof (gives_h_take h p y (Z.of_nat <$> tr) axis Hp) as H1. unfold gives in H1.
  destruct (larry_take y (Z.of_nat <$> tr) axis) as [z1|e]; cbn [mbind res_bind].
  2:{ destruct H1 as (h1 & H1 & He1). exists h1. split; [by fails|done]. }
  destruct H1 as (h1 & q1 & H1 & He1 & Hq1).
  pose proof (gives_h_take h1 p y (Z.of_nat <$> te) axis (read_larry_ext _ _ _ _ He1 Hp)) as H2. unfold gives in H2.
  destruct (larry_take y (Z.of_nat <$> te) axis) as [z2|e]; cbn [mbind res_bind].
  2:{ destruct H2 as (h2 & H2 & He2). exists h2. split; [by fails|by eapply ext_trans]. }
  destruct H2 as (h2 & q2 & H2 & He2 & Hq2). exists h2, [HLarry q1; HLarry q2].
  split; [by runs|]. split; [by eapply ext_trans|]. constructor; [by eapply has_ext|]. by constructor.
Qed.

(** * Views *)

Definition nil_heap : heap := Heap [] [] [] [].
Lemma nil_ext h : ext nil_heap h.
Proof. repeat split; apply prefix_nil. Qed.
Lemma has_parts h p y : has h p y -> exists a o is, ld_x p h = (h, Ok a) /\ ld_label p h = (h, Ok o) /\ get_outer o h = (h, Ok is) /\
  arr_ok nil_heap h a (lx y) /\ mapM (h_lists h !!.) is = Some (llabel y) /\ NoDup is.
Proof.
  intros [Hr (ob & is & Hob & His & Hd & Hdi)]. apply read_larry_Some in Hr as (ob' & is' & Hob' & Hx & Ho & Hl).
  rewrite Hob in Hob'. injection Hob' as <-. rewrite His in Ho. injection Ho as <-.
  exists (o_x ob), (o_label ob), is. unfold ld_x, ld_label, get_outer, look. rewrite Hob. simpl. rewrite His.
  split; [done|]. split; [done|]. split; [done|]. split; [|done]. split; [simpl; lia|done].
Qed.
Lemma new_obj_has h a o x label : arr_ok nil_heap h a x -> lab_ok nil_heap h o label ->
  exists h1 q, new_obj a o h = (h1, Ok q) /\ ext h h1 /\ has h1 q (Larry x label).
Proof.
  intros Ha Hl. destruct (new_obj_ok nil_heap h a o x label (nil_ext h) Hl Ha) as (h1 & q & Hq & Hw).
  exists h1, q. split; [done|]. split; [|by apply working_has in Hw as [_ Hw]]. rewrite new_obj_run in Hq. injection Hq as <- _. apply grow_ext.
Qed.
Lemma new_outer_has h is label : mapM (h_lists h !!.) is = Some label -> NoDup is ->
  exists h1 o, new_outer is h = (h1, Ok o) /\ ext h h1 /\ lab_ok nil_heap h1 o label.
Proof. intros. by apply new_outer_ok; [apply nil_ext|..]. Qed.
(** A larry from an array and the lists of its axes. *)
Lemma gives_assembled h h1 a is x label (m : cmd (list hval)) :
  (forall r, (o' ← new_outer is; one (new_obj a o')) h1 = r -> m h = r) -> ext h h1 ->
  arr_ok nil_heap h1 a x -> mapM (h_lists h1 !!.) is = Some label -> NoDup is -> gives_out h m (Ok [Larry x label]).
Proof.
  intros Hm He Ha Hl Hd. destruct (new_outer_has h1 is label Hl Hd) as (h2 & o & Ho & He2 & Hlo).
  destruct (new_obj_has h2 a o x label) as (h3 & q & Hq & He3 & Hh); [by eapply arr_ok_ext|done|].
  exists h3, [HLarry q]. split; [apply Hm; unfold one; by runs|]. split; [|by constructor].
  eapply ext_trans; [exact He|]. by eapply ext_trans.
Qed.
Lemma mapM_tail (ls : list (list lab)) (is : list nat) label : mapM (ls !!.) is = Some label -> mapM (ls !!.) (tail is) = Some (tail label).
Proof. rewrite !mapM_Some. intros H. by inversion H; [constructor|]. Qed.
Lemma NoDup_tail {A} (l : list A) : NoDup l -> NoDup (tail l).
Proof. intros H. by inversion H; [constructor|]. Qed.

Lemma moves_getitem' h h1 a x items b : arr_ok h h1 a x -> existsb b_list items = false -> np_getitem (nd_arr x) items = Ok b ->
  exists c, view (fun x => np_getitem x items) a h1 = (h1, Ok c) /\ arr_ok h h1 c (Nda (nd_dtype x) b).
Proof. intros Ha Hi Hb. pose proof (view_ok h h1 a x _ _ Ha (moves_getitem items Hi)) as Hv. cbn beta in Hv. by rewrite Hb in Hv. Qed.

Lemma somes_Some {A} (x : A) l : somes (Some x :: l) = x :: somes l.
Proof. done. Qed.
Lemma somes_None {A} (l : list (option A)) : somes (None :: l) = somes l.
Proof. done. Qed.
(** The lists chosen by a tuple index. *)
Lemma mapC_sel h0 y items (is : list nat) : mapM (h_lists h0 !!.) is = Some (llabel y) -> NoDup is ->
  forall n k r h1, ext h0 h1 -> mapR (axis_sel y items) (seq k n) = Ok r ->
  exists ls js, mapC (fun ax => sel ← lift (axis_sel y items ax);
                 match sel, items !! ax with
                 | None, _ => ret None
                 | Some l, Some _ => i ← new_list l; ret (Some i)
                 | Some _, None => i ← lift (of_opt IndexError (is !! ax)); ret (Some i)
                 end) (seq k n) h1 = (grow h1 [] ls [] [], Ok js) /\
    mapM ((h_lists h1 ++ ls) !!.) (somes js) = Some (somes r) /\ NoDup (somes js) /\
    Forall (fun i => (exists j, k <= j /\ is !! j = Some i) \/ length (h_lists h1) <= i) (somes js).
Proof.
  intros Hm Hd n. induction n as [|n IH]; intros k r h1 He Hr; simpl in Hr |- *.
  - injection Hr as <-. exists [], []. rewrite grow_nil. split; [done|]. split; [done|]. split; constructor.
  - apply bind_ok in Hr as (sel & Hsel & Hr). apply bind_ok in Hr as (r' & Hr' & Hr). injection Hr as <-.
    destruct sel as [l|].
    + destruct (items !! k) as [it|] eqn:Hit.
      * set (h2 := grow h1 [] [l] [] []). assert (ext h1 h2) as He12 by apply grow_ext.
        destruct (IH (S k) r' h2 (ext_trans _ _ _ He He12) Hr') as (ls & js & Hrun & Hrd & Hdj & Hin). simpl in Hrd, Hin.
        exists (l :: ls), (Some (length (h_lists h1)) :: js). split.
        { rewrite bind_assoc. erewrite bind_run by (by apply lift_is). cbn match beta. rewrite bind_assoc.
          erewrite bind_run by apply new_list_run. fold h2. erewrite bind_run by done. erewrite bind_run by exact Hrun.
          unfold h2. by rewrite grow_grow. }
        rewrite !somes_Some. rewrite <-(assoc_L (++)) in Hrd. simpl in Hrd. split.
        { apply mapM_Some. constructor; [by rewrite lookup_app_r, Nat.sub_diag by lia|by apply mapM_Some]. }
        rewrite app_length in Hin. simpl in Hin. split.
        -- constructor; [|done]. intros Hx. rewrite Forall_forall in Hin. destruct (Hin _ Hx) as [(j & _ & Hj)|Hx']; [|lia].
           rewrite mapM_Some, Forall2_lookup in Hm. specialize (Hm j). rewrite Hj in Hm. inversion Hm as [? ? Hlk|].
           apply lookup_lt_Some in Hlk. destruct (ext_le _ _ He) as (_ & Hle & _). lia.
        -- constructor; [by right|]. eapply Forall_impl; [exact Hin|]. simpl. intros a [(j & Hj & Ha)|Ha]; [left; exists j; split; [lia|done]|].
           right. lia.
      * pose proof Hsel as Hs. unfold axis_sel in Hs. apply bind_ok in Hs as (n0 & _ & Hs). apply bind_ok in Hs as (l0 & Hl0 & Hs).
        rewrite Hit in Hs. injection Hs as ->. unfold axis_label in Hl0. apply of_opt_ok in Hl0.
        pose proof Hm as Hm'. rewrite mapM_Some, Forall2_lookup in Hm'. specialize (Hm' k) as Hk. rewrite Hl0 in Hk.
        inversion Hk as [i ? Hi Hik|]; subst. symmetry in Hik.
        destruct (IH (S k) r' h1 He Hr') as (ls & js & Hrun & Hrd & Hdj & Hin).
        exists ls, (Some i :: js). split.
        { rewrite bind_assoc. erewrite bind_run by (by apply lift_is). cbn match beta. rewrite bind_assoc.
          erewrite bind_run by done. erewrite bind_run by done. by erewrite bind_run by exact Hrun. }
        destruct He as (_ & Hpl & _). pose proof (prefix_lookup_old _ _ _ _ Hpl Hi) as Hi1.
        rewrite !somes_Some. split.
        { apply mapM_Some. constructor; [by apply lookup_app_l_Some|by apply mapM_Some]. }
        split.
        -- constructor; [|done]. intros Hx. rewrite Forall_forall in Hin. destruct (Hin _ Hx) as [(j & Hj & Hj')|Hx'].
           ++ pose proof (NoDup_lookup is k j i Hd Hik Hj'). lia.
           ++ apply lookup_lt_Some in Hi1. lia.
        -- constructor; [left; exists k; split; [lia|done]|]. eapply Forall_impl; [exact Hin|]. simpl.
           intros a [(j & Hj & Ha)|Ha]; [left; exists j; split; [lia|done]|by right].
    + destruct (IH (S k) r' h1 He Hr') as (ls & js & Hrun & Hrd & Hdj & Hin).
      exists ls, (None :: js). split.
      { rewrite bind_assoc. erewrite bind_run by (by apply lift_is). cbn match beta.
        erewrite bind_run by done. by erewrite bind_run by exact Hrun. }
      rewrite !somes_None. split; [done|]. split; [done|]. eapply Forall_impl; [exact Hin|]. simpl.
      intros a [(j & Hj & Ha)|Ha]; [left; exists j; split; [lia|done]|by right].
Qed.

(** [y[index]]. *)
Lemma gives_new_first h y is x l m : mapM (h_lists h !!.) is = Some (llabel y) -> NoDup is ->
  (forall h1, ext h h1 -> exists h2 b, m h1 = (h2, Ok b) /\ ext h1 h2 /\ arr_ok nil_heap h2 b x) ->
  gives_out h (i ← new_list l; b ← m; o' ← new_outer (<[0 := i]> is); one (new_obj b o')) (Ok [Larry x (<[0 := l]> (llabel y))]).
Proof.
  intros Hm Hd Hmk. set (h1 := grow h [] [l] [] []). destruct (Hmk h1 (grow_ext _ _ _ _ _)) as (h2 & b & Hb & He & Hx).
  destruct (mapM_insert_new _ _ _ 0 l Hm Hd) as [Hm' Hd'].
  apply (gives_assembled h h2 b (<[0 := length (h_lists h)]> is)).
  - intros r <-. erewrite bind_run by apply new_list_run. fold h1. by erewrite bind_run by exact Hb.
  - eapply ext_trans; [apply grow_ext|exact He].
  - done.
  - eapply mapM_lookup_prefix; [|exact Hm']. apply He.
  - done.
Qed.
Lemma forallb_no_list items : forallb b_int items = true -> existsb b_list items = false.
Proof. induction items as [|[] items IH]; simpl; try done. Qed.
Lemma gives_h_getitem h p y ix : has h p y -> gives_out h (h_getitem p ix) (g ← larry_getitem y ix; Ok (gres_larrys g)).
Proof.
  intros Hp. destruct (has_parts h p y Hp) as (a & o & is & Ha & Ho & His & Hax & Hm & Hd). pose proof (proj1 Hp) as Hr.
  unfold h_getitem. destruct (larry_getitem y ix) as [g|e] eqn:Hg; cbn [mbind res_bind].
  2:{ exists h. split; [by fails|apply ext_refl]. }
  destruct g as [z|v|x]; cbn [gres_larrys].
  2:{ exists h, [HScalar v]. split; [by runs|]. split; [apply ext_refl|constructor]. }
  2:{ pose proof Hg as Hg0. assert (exists items b, ix = XTuple items /\ forallb b_int items = true /\ np_getitem (larr y) items = Ok b) as (items & b & -> & Hi & Hb).
      { destruct ix as [k|s|zs|bs|m|items]; simpl in Hg.
        - apply bind_ok in Hg as (? & _ & Hg). case_decide; [done|]. apply bind_ok in Hg as (? & _ & Hg). case_decide; [|done].
          by apply bind_ok in Hg as (? & _ & Hg).
        - repeat (apply bind_ok in Hg as (? & _ & Hg)). done.
        - repeat (apply bind_ok in Hg as (? & _ & Hg)). destruct (py_nodup _); [|done]. by apply bind_ok in Hg as (? & _ & Hg).
        - repeat (apply bind_ok in Hg as (? & _ & Hg)). done.
        - repeat (case_decide; [done|]). repeat (apply bind_ok in Hg as (? & _ & Hg)). done.
        - apply bind_ok in Hg as (label & _ & Hg). apply bind_ok in Hg as (b & Hb & Hg). exists items, b.
          destruct (forallb b_int items); [done|]. by apply bind_ok in Hg as (? & _ & ?). }
      destruct (moves_getitem' _ _ _ _ items b Hax) as (c & Hc & _); [by apply forallb_no_list|done|].
      exists h, [HNd c]. split; [|split; [apply ext_refl|constructor]]. unfold index_items. by runs. }
  pose proof Hg as Hg0. destruct ix as [k|s|zs|bs|m|items]; simpl in Hg.
  - apply bind_ok in Hg as (n & _ & Hg). case_decide; [done|]. apply bind_ok in Hg as (b & Hb & Hg).
    case_decide; [by apply bind_ok in Hg as (? & _ & ?)|]. injection Hg as <-.
    destruct (moves_getitem' _ _ _ _ [IInt k] b Hax) as (c & Hc & Hcx); [done|done|].
    apply (gives_assembled h h c (tail is)); [|apply ext_refl|done|by apply mapM_tail|by apply NoDup_tail].
    intros r <-. unfold index_items. by runs.
  - apply bind_ok in Hg as (l & Hl & Hg). apply bind_ok in Hg as (l' & Hl' & Hg). apply bind_ok in Hg as (b & Hb & Hg). injection Hg as <-.
    assert (axis_label (Larry (Nda (ldtype y) b) (<[0 := l']> (llabel y))) 0 = Ok l') as Hzl by (by eapply axis_label_insert).
    eapply gives_out_eq; [|apply (gives_new_first h y is _ l' (view (fun x => np_getitem x [ISlice s]) a) Hm Hd)].
    { unfold index_items. erewrite !bind_run by known_step. by runs. }
    intros h1 He1. destruct (moves_getitem' nil_heap h1 a (lx y) [ISlice s] b) as (c & Hc & Hcx); [by eapply arr_ok_ext|done|done|].
    exists h1, c. split; [done|]. split; [apply ext_refl|done].
  - apply bind_ok in Hg as (l & Hl & Hg). apply bind_ok in Hg as (l' & Hl' & Hg). destruct (py_nodup l'); [|done].
    apply bind_ok in Hg as (b & Hb & Hg). injection Hg as <-.
    assert (axis_label (Larry (Nda (ldtype y) b) (<[0 := l']> (llabel y))) 0 = Ok l') as Hzl by (by eapply axis_label_insert).
    eapply gives_out_eq; [|apply (gives_new_first h y is _ l' (alloc (Nda (ldtype y) b)) Hm Hd)].
    { unfold index_items. erewrite !bind_run by known_step. by runs. }
    intros h1 He1. destruct (alloc_ok nil_heap h1 (Nda (ldtype y) b) (nil_ext h1)) as (h2 & c & Hc & He2 & _ & Hcx). by exists h2, c.
  - apply bind_ok in Hg as (l & Hl & Hg). apply bind_ok in Hg as (l' & Hl' & Hg). apply bind_ok in Hg as (b & Hb & Hg). injection Hg as <-.
    assert (axis_label (Larry (Nda (ldtype y) b) (<[0 := l']> (llabel y))) 0 = Ok l') as Hzl by (by eapply axis_label_insert).
    pose proof (gives_relabelled h p y (Larry (Nda (ldtype y) b) (<[0 := l']> (llabel y))) 0 l' Hr eq_refl) as Hrel.
    apply gives_one in Hrel. revert Hrel. apply gives_out_eq. runs. unfold one. rewrite !bind_assoc. unfold mbind, cmd_bind.
    repeat (match goal with |- context [match ?c with pair _ _ => _ end] => match c with context [match _ with _ => _ end] => fail 1 | _ => destruct c as [? [|]] end end; try done).
  - case_decide; [done|]. case_decide; [done|]. case_decide; [done|].
    apply bind_ok in Hg as (l & Hl & Hg). apply bind_ok in Hg as (l' & Hl' & Hg). apply bind_ok in Hg as (b & Hb & Hg).
    apply bind_ok in Hg as (z' & Hz' & Hg). injection Hg as <-. apply make_some_ok in Hz' as (-> & _).
    assert (axis_label (Larry (Nda (ldtype y) b) (<[0 := l']> (llabel y))) 0 = Ok l') as Hzl by (by eapply axis_label_insert).
    pose proof (gives_relabelled h p y (Larry (Nda (ldtype y) b) (<[0 := l']> (llabel y))) 0 l' Hr eq_refl) as Hrel.
    apply gives_one in Hrel. revert Hrel. apply gives_out_eq. runs. unfold one. rewrite !bind_assoc. unfold mbind, cmd_bind.
    repeat (match goal with |- context [match ?c with pair _ _ => _ end] => match c with context [match _ with _ => _ end] => fail 1 | _ => destruct c as [? [|]] end end; try done).
  - apply bind_ok in Hg as (label & Hl & Hg). apply bind_ok in Hg as (b & Hb & Hg).
    destruct (forallb b_int items). { destruct (shape b); [by apply bind_ok in Hg as (? & _ & ?)|done]. }
    apply bind_ok in Hg as (z' & Hz' & Hg). injection Hg as <-.
    assert (z' = Larry (Nda (ldtype y) b) label) as ->.
    { unfold new_larry in Hz'. destruct (existsb b_list items); [by apply make_some_ok in Hz' as (-> & _)|by injection Hz' as <-]. }
    unfold tuple_label in Hl. apply bind_ok in Hl as (r & Hsel & Hl). injection Hl as <-.
    destruct (mapC_sel h y items is Hm Hd (lndim y) 0 r h (ext_refl h) Hsel) as (ls & js & Hrun & Hrd & Hdj & _).
    set (h1 := grow h [] ls [] []) in *. assert (ext h h1) as He1 by apply grow_ext.
    assert (exists h2 c, (if existsb b_list items then alloc (Nda (ldtype y) b) else view (fun x => np_getitem x (index_items (XTuple items))) a) h1 = (h2, Ok c) /\
      ext h1 h2 /\ arr_ok nil_heap h2 c (Nda (ldtype y) b)) as (h2 & c & Hc & He2 & Hcx).
    { destruct (existsb b_list items) eqn:Hex.
      - destruct (alloc_ok nil_heap h1 (Nda (ldtype y) b) (nil_ext h1)) as (h2 & c & Hc & He2 & _ & Hcx). by exists h2, c.
      - destruct (moves_getitem' nil_heap h1 a (lx y) items b) as (c & Hc & Hcx); [by eapply arr_ok_ext|done|done|].
        exists h1, c. split; [done|]. split; [apply ext_refl|done]. }
    apply (gives_assembled h h2 c (somes js)); [|by eapply ext_trans|done| |done].
    + intros s <-. by runs.
    + eapply mapM_lookup_prefix; [|exact Hrd]. apply He2.
Qed.

(** pull, squeeze, lix. *)
Lemma gives_h_pull h p y name axis : has h p y -> gives_out h (h_pull p name axis) (o ← pull y name axis; Ok (out_larrys o)).
Proof.
  intros Hp. destruct (has_parts h p y Hp) as (a & o & is & Ha & Ho & His & Hax & Hm & Hd). pose proof (proj1 Hp) as Hr.
  unfold h_pull. destruct (pull y name axis) as [[z|v]|e] eqn:Hz; cbn [mbind res_bind out_larrys].
  2:{ exists h, [HScalar v]. split; [by runs|]. split; [apply ext_refl|constructor]. }
  2:{ exists h. split; [by fails|apply ext_refl]. }
  pose proof Hz as Hz1. unfold pull in Hz1. apply bind_ok in Hz1 as (axis' & Hax' & Hz1). apply bind_ok in Hz1 as (ax & Hpy & Hz1).
  apply bind_ok in Hz1 as (idx & Hidx & Hz1). apply of_opt_ok in Hax' as ->.
  apply bind_ok in Hz1 as (x & Hx & Hz1). case_decide as Hs; [by apply bind_ok in Hz1 as (? & _ & ?)|].
  apply bind_ok in Hz1 as (z' & Hz' & Hz1). injection Hz1 as ->. apply make_some_ok in Hz' as (-> & _).
  case_decide as H1.
  { exfalso. apply of_opt_ok in Hx. unfold take_pos in Hx. apply bind_Some in Hx as (n & Hn & Hx).
    apply Hs. unfold gather in Hx. case_decide; [|done]. apply build_Some in Hx as (Hx & _). rewrite Hx. unfold axlen in Hn.
    unfold lndim, lshape, nd_shape in H1. change (nd_arr (lx y)) with (larr y) in H1.
    destruct (shape (larr y)) as [|m [|]]; try done. destruct ax; done. }
  pose proof (view_ok nil_heap h a (lx y) _ _ Hax (moves_pick_axis IndexError idx ax)) as Hv. cbn beta in Hv.
  change (nd_arr (lx y)) with (larr y) in Hv. rewrite Hx in Hv. destruct Hv as (c & Hc & Hcx).
  apply (gives_assembled h h c (remove_at ax is)); [|apply ext_refl|done|by apply remove_at_mapM|by apply remove_at_NoDup].
  intros r <-. by runs.
Qed.
Lemma squeeze_lists (ls : list (list lab)) sh (is : list nat) label : mapM (ls !!.) is = Some label ->
  mapM (ls !!.) (filter (fun r : nat * nat => r.1 <> 1) (zip sh is)).*2 = Some (squeeze_label sh label).
Proof.
  rewrite !mapM_Some. intros H. revert sh. unfold squeeze_label. induction H as [|i l is label Hi H IH]; intros [|n sh]; simpl; [constructor..|].
  rewrite !filter_cons. simpl. destruct (decide (n <> 1)); simpl; [constructor; [done|]|]; apply IH.
Qed.
Lemma squeeze_NoDup sh (is : list nat) : NoDup is -> NoDup (filter (fun r : nat * nat => r.1 <> 1) (zip sh is)).*2.
Proof.
  intros Hd. apply (sublist_NoDup _ is); [|done]. clear Hd. revert sh. induction is as [|i is IH]; intros [|n sh]; simpl; try done; [apply sublist_nil_l..|].
  rewrite filter_cons. simpl. destruct (decide (n <> 1)); simpl; constructor; apply IH.
Qed.
Lemma gives_h_squeeze h p y : has h p y -> gives_out h (one (h_squeeze p)) (Ok [squeeze y]).
Proof.
  intros Hp. destruct (has_parts h p y Hp) as (a & o & is & Ha & Ho & His & Hax & Hm & Hd). pose proof (proj1 Hp) as Hr.
  pose proof (view_ok nil_heap h a (lx y) _ _ Hax moves_squeeze) as Hv. destruct Hv as (c & Hc & Hcx).
  apply (gives_assembled h h c ((filter (fun r : nat * nat => r.1 <> 1) (zip (lshape y) is)).*2));
    [|apply ext_refl|done|by apply squeeze_lists|by apply squeeze_NoDup].
  intros r <-. unfold one, h_squeeze. rewrite bind_assoc. erewrite bind_run by known_step. rewrite bind_assoc. erewrite bind_run by known_step.
  rewrite bind_assoc. erewrite bind_run by known_step. rewrite bind_assoc. erewrite bind_run by known_step. rewrite bind_assoc.
  erewrite bind_run by known_step. by rewrite bind_assoc.
Qed.
Lemma gives_h_lix_get h p y ix : has h p y -> gives_out h (h_lix_get p ix) (g ← lix_get y ix; Ok (gres_larrys g)).
Proof.
  intros Hp. pose proof (proj1 Hp) as Hr. unfold h_lix_get. set (m := fun y => if decide (lshape y = [0]) then _ else _).
  apply (gives_out_eq h _ (m y)); [by erewrite bind_run by known_step|]. unfold m. clear m.
  unfold lix_get at 2.
  destruct (decide (lshape y = [0])); cbn [mbind res_bind gres_larrys].
  { exists h, [HLarry p]. split; [done|]. split; [apply ext_refl|by constructor]. }
  destruct (decide (0 ∈ lshape y)); cbn [mbind res_bind gres_larrys].
  { exists h. split; [done|apply ext_refl]. }
  destruct ix as [z|ls|s|items].
  - by apply gives_h_getitem.
  - destruct (axis_label y 0) as [l|e] eqn:Hl; cbn [mbind res_bind]; [|exists h; split; [by fails|apply ext_refl]].
    destruct (labels2indices l ls) as [ps|e] eqn:Hps; cbn [mbind res_bind]; [|exists h; split; [by fails|apply ext_refl]].
    eapply gives_out_eq; [by runs|]. destruct ps as [|i [|j ps]]; by apply gives_h_getitem.
  - destruct (slicemaker y 0 s) as [s'|e] eqn:Hs; cbn [mbind res_bind]; [|exists h; split; [by fails|apply ext_refl]].
    eapply gives_out_eq; [by runs|]. by apply gives_h_getitem.
  - set (r := (q ← lix_items y items; _ : res gres)). assert (forall e, r = e -> lift (lix_get y (LxTuple items)) h = (h, e)) as Hrun.
    { intros e0 <-. apply lift_is. unfold lix_get. rewrite !decide_False by done. done. }
    destruct r as [[z|v|x]|e]; cbn [mbind res_bind gres_larrys].
    + destruct (h_new_ok h h z (ext_refl h)) as (h1 & q & Hq & He & Hw). exists h1, [HLarry q].
      split; [erewrite bind_run by (by apply Hrun); unfold one; by runs|]. split; [done|]. constructor; [|constructor]. by apply working_has in Hw as [_ ?].
    + exists h, [HScalar v]. split; [by erewrite bind_run by (by apply Hrun)|]. split; [apply ext_refl|constructor].
    + destruct (alloc_ok h h x (ext_refl h)) as (h1 & a & Ha & He & _). exists h1, [HNd a].
      split; [erewrite bind_run by (by apply Hrun); by runs|]. split; [done|constructor].
    + exists h. split; [by erewrite bind_fail by (by apply Hrun)|apply ext_refl].
Qed.
