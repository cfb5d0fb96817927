(** The remaining calls that make new larrys. *)
From Verif Require Export RefineCalls.

(** * vacuum, cut_missing *)

Lemma mapM_lookup_seq {A} (l : list A) n : n = length l -> mapM (l !!.) (seq 0 n) = Some l.
Proof.
  intros ->. apply mapM_Some. apply Forall2_same_length_lookup_2; [by rewrite seq_length|].
  intros i k x Hk Hx. apply lookup_seq in Hk as [-> _]. done.
Qed.
Lemma cut_slices_labels p cut y z : valid y -> cut_slices p cut y = Ok z ->
  length (llabel z) = length (llabel y) /\ forall ax, cut ax = false -> llabel z !! ax = llabel y !! ax.
Proof.
  intros Hv Hz. unfold cut_slices in Hz. apply bind_ok in Hz as (ids & Hids & Hz). apply bind_ok in Hz as (label & Hlab & Hz).
  apply bind_ok in Hz as (b & _ & Hz). injection Hz as <-. simpl.
  apply mapR_ok in Hids. apply mapR_ok in Hlab. apply Forall2_length in Hids as Hn. apply Forall2_length in Hlab as Hn'.
  rewrite seq_length in Hn. rewrite zip_with_length in Hn'.
  assert (length (llabel y) = lndim y) as Hnd.
  { destruct Hv as (_ & _ & Hl & _). apply (f_equal length) in Hl. by rewrite fmap_length in Hl. }
  split; [lia|]. intros ax Hc. rewrite Forall2_lookup in Hids. rewrite Forall2_lookup in Hlab. specialize (Hids ax). specialize (Hlab ax).
  destruct (decide (ax < lndim y)) as [Hlt|Hge].
  2:{ rewrite !(proj2 (lookup_ge_None _ _)) by lia. done. }
  rewrite lookup_seq_lt in Hids by done. inversion Hids as [? ids0 Hi Heq1 Heq2|]; subst. simpl in Hi. rewrite Hc in Hi.
  apply bind_ok in Hi as (n & Hax & [= <-]). apply of_opt_ok in Hax.
  destruct (lookup_lt_is_Some_2 (llabel y) ax) as [l Hl]; [lia|].
  rewrite lookup_zip_with, Hl, <-Heq2 in Hlab. simpl in Hlab. inversion Hlab as [? l' Hl' Heq3 Heq4|]; subst. simpl in Hl'.
  rewrite mapM_lookup_seq in Hl'; [by injection Hl' as <-; rewrite Hl|].
  destruct Hv as (_ & _ & Hsh & _). unfold axlen in Hax. change (shape (larr y)) with (lshape y) in Hax. rewrite <-Hsh, list_lookup_fmap, Hl in Hax. by injection Hax.
Qed.

(** Some axes get a list of their own, the others keep theirs. *)
Lemma mapC_cut cut (is0 : list nat) (ls0 : list (list lab)) : forall (label0 label : list (list lab)) (is : list nat) k h1,
  mapM (ls0 !!.) is = Some label0 -> ls0 `prefix_of` h_lists h1 -> NoDup is ->
  length label = length label0 -> (forall j, is0 !! (k + j) = is !! j) ->
  (forall j, cut (k + j) = false -> label !! j = label0 !! j) ->
  exists ls js, mapC (fun r : nat * list lab => if cut r.1 then new_list r.2 else lift (of_opt IndexError (is0 !! r.1)))
                  (zip (seq k (length label)) label) h1 = (grow h1 [] ls [] [], Ok js) /\
    Forall2 (fun i l => (h_lists h1 ++ ls) !! i = Some l) js label /\ NoDup js /\
    Forall (fun i => i ∈ is \/ length (h_lists h1) <= i) js.
Proof.
  intros label0 label. revert label0. induction label as [|l label IH]; intros label0 is k h1 Hm Hp Hd Hlen His Hcut; simpl.
  - exists [], []. rewrite grow_nil. split; [done|]. split; [constructor|]. split; constructor.
  - destruct label0 as [|l0 label0]; [done|]. apply mapM_Some in Hm. inversion Hm as [|i ? is' ? Hi Hm']; subst.
    apply NoDup_cons in Hd as [Hni Hd]. apply mapM_Some in Hm'.
    assert (forall j, is0 !! (S k + j) = is' !! j) as His' by (intros j; specialize (His (S j)); simpl in His; by rewrite <-His; f_equal; lia).
    assert (forall j, cut (S k + j) = false -> label !! j = label0 !! j) as Hcut'.
    { intros j Hj. specialize (Hcut (S j)). simpl in Hcut. apply Hcut. by replace (k + S j) with (S k + j) by lia. }
    simpl in Hlen. destruct (cut k) eqn:Hk.
    + set (h2 := grow h1 [] [l] [] []).
      destruct (IH label0 is' (S k) h2 Hm') as (ls & js & Hrun & Hf & Hdj & Hin); [|done|lia|done|done|].
      { simpl. by apply prefix_app_r. }
      exists (l :: ls), (length (h_lists h1) :: js).
      erewrite bind_run by apply new_list_run. fold h2. erewrite bind_run by exact Hrun. unfold h2. rewrite grow_grow. simpl.
      split; [done|]. simpl in Hf, Hin. split.
      { constructor; [by rewrite lookup_app_r, Nat.sub_diag by lia|].
        eapply Forall2_impl; [exact Hf|]. simpl. intros a b. by rewrite <-(assoc_L (++)). }
      split.
      * constructor; [|done]. intros Hx. rewrite Forall_forall in Hin. destruct (Hin _ Hx) as [Hx'|Hx'].
        -- apply elem_of_list_lookup in Hx' as [j Hj]. rewrite mapM_Some in Hm'. rewrite Forall2_lookup in Hm'. specialize (Hm' j).
           rewrite Hj in Hm'. inversion Hm' as [? ? Hlk|]. apply lookup_lt_Some in Hlk. apply prefix_length in Hp. lia.
        -- rewrite app_length in Hx'. simpl in Hx'. lia.
      * constructor; [by right|]. eapply Forall_impl; [exact Hin|]. simpl. intros a [Ha|Ha]; [left; by right|].
        right. rewrite app_length in Ha. lia.
    + destruct (IH label0 is' (S k) h1 Hm' Hp Hd) as (ls & js & Hrun & Hf & Hdj & Hin); [lia|done|done|].
      exists ls, (i :: js). pose proof (His 0) as H0. rewrite Nat.add_0_r in H0. simpl in H0.
      erewrite bind_run; [|apply lift_some; exact H0]. erewrite bind_run by exact Hrun.
      split; [done|]. pose proof (Hcut 0) as Hc0. rewrite Nat.add_0_r in Hc0. specialize (Hc0 Hk). injection Hc0 as ->.
      pose proof (prefix_lookup_old _ _ _ _ Hp Hi) as Hi1.
      split; [constructor; [by apply lookup_app_l_Some|done]|]. split.
      * constructor; [|done]. intros Hx. rewrite Forall_forall in Hin. destruct (Hin _ Hx) as [Hx'|Hx']; [done|].
        apply lookup_lt_Some in Hi1. lia.
      * constructor; [left; by left|]. eapply Forall_impl; [exact Hin|]. simpl. intros a [Ha|Ha]; [left; by right|by right].
Qed.
Lemma gives_h_cut h p y test cut : read_larry h p = Some y -> valid y -> gives h (h_cut test cut p) (cut_slices test cut y).
Proof.
  intros Hp Hv. apply (gives_value _ _ y); [done|]. destruct (cut_slices test cut y) as [z|e] eqn:Hz; [|by apply gives_err].
  destruct (cut_slices_labels _ _ _ _ Hv Hz) as [Hlen Hsame].
  apply (gives_lift_ok _ _ z); [done|].
  destruct (h_copy_ok h h p y (ext_refl h) Hp) as (h1 & q & Hc & _ & Hw).
  destruct (w_label h h1 q y Hw) as (o & is & Ho & His & Hat & Hln & Hm & Hd).
  destruct (mapC_cut cut is (h_lists h1) (llabel y) (llabel z) is 0 h1 Hm) as (ls & js & Hrun & Hf & Hdj & _);
    [done|done|done|done|by intros j; apply Hsame|].
  set (h2 := grow h1 [] ls [] []) in *. assert (ext h1 h2) as He12 by apply grow_ext.
  destruct (new_outer_ok h h2 js (llabel z)) as (h3 & o' & Hno & He23 & Hl3); [|by apply mapM_Some|done|].
  { eapply ext_trans; [apply Hw|exact He12]. }
  assert (working h h3 q y) as Hw3 by (eapply working_ext; [eapply ext_trans; [exact He12|exact He23]|exact Hw]).
  destruct (w_assign h h3 q y (lx z) Hw3) as (h4 & b & h5 & Hal & He34 & Hsx & _ & Hw5).
  assert (lab_ok h h5 o' (llabel z)) as Hl5.
  { apply (lab_ok_ext _ _ _ _ _ He34) in Hl3. unfold set_x, set_obj in Hsx. destruct (h_objs h4 !! q); [|discriminate Hsx].
    injection Hsx as <-. exact Hl3. }
  destruct (w_set_label h h5 q _ o' (llabel z) Hw5 Hl5) as (h6 & Hsl & Hw6). destruct z as [zx zl].
  eapply working_gives; [|exact Hw6]. by runs.
Qed.
Lemma gives_h_vacuum h p y axis : read_larry h p = Some y -> valid y -> gives h (h_vacuum p axis) (vacuum y axis).
Proof. intros Hp Hv. by apply gives_h_cut. Qed.
Lemma gives_h_cut_missing h p y fraction axis : read_larry h p = Some y -> valid y ->
  gives h (h_cut_missing p fraction axis) (cut_missing y fraction axis).
Proof.
  intros Hp Hv. apply (gives_value _ _ y); [done|]. apply gives_lift. intros keep _.
  apply (gives_bind h _ _ (fun q => z ← value q; if decide (lsize z = 0) then h_new empty_larry else ret q)
          (fun z => if decide (lsize z = 0) then Ok empty_larry else Ok z)); [by apply gives_h_cut|].
  intros h' q z _ He Hq. apply (gives_value _ _ z); [apply Hq|]. destruct (decide (lsize z = 0)); [apply gives_h_new|].
  exists h', q. split; [done|]. split; [apply ext_refl|done].
Qed.

(** * Operators, comparisons, cumulative sums and reductions *)

Lemma gives_h_binary h p1 p2 y1 y2 f : read_larry h p1 = Some y1 -> read_larry h p2 = Some y2 ->
  gives h (h_binary f p1 p2) (larry_binary f y1 (OpLarry y2)).
Proof.
  intros H1 H2. apply (gives_value _ _ y1); [done|]. apply (gives_value _ _ y2); [done|].
  destruct (decide (llabel y1 = llabel y2)) as [Hl|Hl].
  - unfold larry_binary. rewrite decide_True by done. apply gives_lift. intros x _. destruct (alloc_ok h h x (ext_refl h)) as (h1 & a & Ha & He1 & _ & Hx).
    destruct (copylabel_ok h h1 p1 y1 He1) as (h2 & o & Hc & He12 & He2 & Hlo); [by eapply read_larry_ext|].
    destruct (new_obj_ok h h2 a o x (llabel y1)) as (h3 & q & Hq & Hw); [done|done|eapply arr_ok_ext; [exact He12|exact Hx]|].
    eapply working_gives; [|exact Hw]. by runs.
  - destruct (larry_binary f y1 (OpLarry y2)) as [z|e]; [|by apply gives_err]. eapply gives_lift_ok; [done|apply gives_h_new].
Qed.
Lemma larry_neg_label y z : larry_neg y = Ok z -> llabel z = llabel y.
Proof. unfold larry_neg. intros H. repeat (apply bind_ok in H as (? & _ & H)). by injection H as <-. Qed.
Lemma gives_h_rsub h p y other : read_larry h p = Some y -> (forall z, larry_arith ASub y other = Ok z -> llabel z = llabel y) ->
  gives h (h_rsub other p) (larry_rsub y other).
Proof.
  intros Hp Hl. unfold h_rsub, larry_rsub. apply (gives_bind h _ _ (h_map larry_neg) larry_neg); [by apply (gives_h_map h p y (fun y => larry_arith ASub y other))|].
  intros h' q z _ He Hq. apply gives_h_map; [apply Hq|]. apply larry_neg_label.
Qed.
(** Results that are larrys or scalars. *)
Ltac runs ::= repeat (cbn match beta; erewrite bind_run by known_step); cbn match beta.
Definition outs (h : heap) (m : cmd (list hval)) (r : res out) : Prop :=
  match r with
  | Ok (OLar z) => exists h1 q, m h = (h1, Ok [HLarry q]) /\ working h h1 q z
  | Ok (OVal v) => m h = (h, Ok [HScalar v])
  | Err e => m h = (h, Err e)
  end.
Lemma outs_gives h m r : outs h m r -> gives_out h m (o ← r; Ok (out_larrys o)).
Proof.
  destruct r as [[z|v]|e]; simpl.
  - intros (h1 & q & Hm & Hw). exists h1, [HLarry q]. split; [done|]. apply working_has in Hw as [He Hq]. split; [done|].
    by constructor.
  - intros Hm. exists h, [HScalar v]. split; [done|]. split; [apply ext_refl|constructor].
  - intros Hm. exists h. split; [done|apply ext_refl].
Qed.
Lemma gives_one h m r : gives h m r -> gives_out h (one m) (z ← r; Ok [z]).
Proof.
  unfold gives, one. destruct r as [z|e]; simpl.
  - intros (h1 & q & Hm & He & Hq). exists h1, [HLarry q]. split; [by runs|]. split; [done|by constructor].
  - intros (h1 & Hm & He). exists h1. by rewrite (bind_fail _ _ _ _ _ Hm).
Qed.
Lemma outs_map h p y f : read_larry h p = Some y -> (forall z, f y = Ok (OLar z) -> llabel z = llabel y) ->
  outs h (h_map_out f p) (f y).
Proof.
  intros Hp Hf. unfold outs, h_map_out. destruct (f y) as [[z|v]|e] eqn:Hr.
  - destruct (alloc_ok h h (lx z) (ext_refl h)) as (h1 & a & Ha & He1 & _ & Hx).
    destruct (copylabel_ok h h1 p y He1) as (h2 & o & Hc & He12 & He2 & Hlo); [by eapply read_larry_ext|].
    destruct (new_obj_ok h h2 a o (lx z) (llabel y)) as (h3 & q & Hq & Hw); [done|done|eapply arr_ok_ext; [exact He12|exact Hx]|].
    exists h3, q. rewrite <-(Hf z eq_refl) in Hw. destruct z as [zx zl]. split; [|done]. unfold one. by runs.
  - by runs.
  - by fails.
Qed.
Lemma remove_at_mapM (ls : list (list lab)) (is : list nat) label ax :
  mapM (ls !!.) is = Some label -> mapM (ls !!.) (remove_at ax is) = Some (remove_at ax label).
Proof.
  rewrite !mapM_Some. unfold remove_at. intros H. revert ax. induction H as [|i l is' label' Hi H IH]; intros [|ax]; simpl; [constructor..|done|].
  constructor; [done|apply IH].
Qed.
Lemma sublist_NoDup {A} (l k : list A) : l `sublist_of` k -> NoDup k -> NoDup l.
Proof.
  induction 1 as [|x l k H IH|x l k H IH]; [done|..]; intros [Hn Hd]%NoDup_cons; [|by apply IH].
  constructor; [|by apply IH]. intros Hx. apply Hn. eapply elem_of_submseteq; [exact Hx|by apply sublist_submseteq].
Qed.
Lemma remove_at_NoDup {A} (l : list A) ax : NoDup l -> NoDup (remove_at ax l).
Proof. intros H. eapply sublist_NoDup; [|exact H]. apply sublist_delete. Qed.
(** One axis less. *)
Definition reduced (y : larry) (axis : option Z) (r : res out) : Prop :=
  forall z, r = Ok (OLar z) -> exists a ax, axis = Some a /\ py_index (lndim y) a = Some ax /\ llabel z = remove_at ax (llabel y).
Lemma outs_reduce h p y f axis : read_larry h p = Some y -> reduced y axis (f y) -> outs h (h_reduce f p axis) (f y).
Proof.
  intros Hp Hf. unfold outs, h_reduce. destruct (f y) as [[z|v]|e] eqn:Hr.
  - destruct (Hf z eq_refl) as (a & ax & -> & Hax & Hl).
    destruct (alloc_ok h h (lx z) (ext_refl h)) as (h1 & b & Ha & He1 & _ & Hx).
    destruct (copylabel_ok h h1 p y He1) as (h2 & o & Hc & He12 & He2 & Hlo); [by eapply read_larry_ext|].
    pose proof Hlo as (Hn & is & His & Hm & Hd).
    destruct (set_outer_ok h h2 o (llabel y) (remove_at ax is) (llabel z)) as (h3 & Hs & He3 & Hl3 & Hr3); [done|done| |by apply remove_at_NoDup|].
    { rewrite Hl. by apply remove_at_mapM. }
    assert (pop_axis o ax h2 = (h3, Ok ())) as Hpop.
    { unfold pop_axis. erewrite bind_run; [exact Hs|]. unfold get_outer, look. by rewrite His. }
    destruct (new_obj_ok h h3 b o (lx z) (llabel z)) as (h4 & q & Hq & Hw); [done|done| |].
    { eapply same_rest_arr; [exact Hr3|]. eapply arr_ok_ext; [exact He12|exact Hx]. }
    exists h4, q. destruct z as [zx zl]. split; [|done]. unfold one. by runs.
  - destruct axis; by runs.
  - by fails.
Qed.
Lemma as_out_label x label z : as_out x label = Ok (OLar z) -> llabel z = label.
Proof.
  unfold as_out. destruct (nd_shape x); [intros (? & _ & ?)%bind_ok; congruence|]. by intros [= <-].
Qed.
Lemma reduced_reduce op y axis : reduced y axis (larry_reduce op y axis).
Proof.
  intros z H. unfold larry_reduce in H. case_decide.
  - destruct axis as [a|]; [|done]. apply bind_ok in H as (ax & Ha%of_opt_ok & H). exists a, ax. split; [done|]. split; [done|].
    case_match; [done|]. by apply bind_ok in H as (? & _ & [= <-]).
  - apply bind_ok in H as (dt & _ & H). destruct axis as [a|]; [|done]. apply bind_ok in H as (ax & Ha%of_opt_ok & H).
    apply bind_ok in H as (b & _ & H). exists a, ax. split; [done|]. split; [done|]. by eapply as_out_label.
Qed.
Lemma reduced_std sqrt y axis ddof : reduced y axis (larry_std sqrt y axis ddof).
Proof.
  intros z H. unfold larry_std in H. apply bind_ok in H as ([w|v] & Hr & [= H]); [|by case_decide].
  apply reduced_reduce in Hr. case_decide; by injection H as <-.
Qed.
Lemma reduced_lastrank y a : reduced y (Some a) (larry_lastrank y a).
Proof.
  intros z H. unfold larry_lastrank in H. apply bind_ok in H as (ax & Ha%of_opt_ok & H). case_decide.
  - exists a, ax. split; [done|]. split; [done|].
    case_match; [done|]. by apply bind_ok in H as (? & _ & [= <-]).
  - apply bind_ok in H as (_ & _ & H).
    apply bind_ok in H as (b & _ & H). exists a, ax. split; [done|]. split; [done|]. by eapply as_out_label.
Qed.

(** Arrays of the same dtype and size, which can be written over each other. *)
Definition sized (x : nda) : Prop := arr_wf (nd_arr x).
Definition over (x x' : nda) : Prop :=
  nd_dtype x' = nd_dtype x /\ nd_shape x' = nd_shape x /\ length (data (nd_arr x')) = length (data (nd_arr x)).
Lemma over_sized x x' : sized x -> sized x' -> nd_dtype x' = nd_dtype x -> nd_shape x' = nd_shape x -> over x x'.
Proof. unfold sized, arr_wf. intros H H' Ht Hs. split; [done|]. split; [done|]. rewrite H, H'. unfold asize. unfold nd_shape in Hs. by rewrite Hs. Qed.
Lemma putmask_over x m v x' : sized x -> arr_wf m -> shape m = nd_shape x -> putmask_scalar x m v = Ok x' -> over x x' /\ sized x'.
Proof.
  intros Hx Hm Hs H. unfold putmask_scalar in H. apply bind_ok in H as (r & _ & [= <-]).
  assert (sized (Nda (nd_dtype x) (azip (fun (b : bool) u => if b then r else u) m (nd_arr x)))) as Hz by (by apply azip_wf).
  split; [|done]. by apply over_sized.
Qed.
Lemma test_mask_sized p x m : sized x -> test_mask p x = Ok m -> arr_wf m /\ shape m = nd_shape x.
Proof.
  intros Hw H. unfold test_mask in H. destruct (nd_dtype x); try done; injection H as <-; (split; [by apply amap_wf|done]).
Qed.
Lemma np_cum_sized op x axis x' : sized x -> np_cum op x axis = Ok x' -> sized x' /\ nd_shape x' = nd_shape x.
Proof.
  intros Hx H. unfold np_cum in H. apply bind_ok in H as (ax & _ & H). apply bind_ok in H as (b & Hb & H). injection H as <-.
  apply of_opt_ok in Hb. unfold along in Hb.
  assert (shape (nd_arr (bool_to_int x)) = nd_shape x) as Hs.
  { unfold bool_to_int. by destruct (nd_dtype x). }
  apply build_Some in Hb as (Hb & Hw & _). split; [done|]. by rewrite <-Hs.
Qed.

(** * cumsum, cumprod, prod *)

Lemma w_write_over h h1 q y x : working h h1 q y -> over (lx y) x ->
  exists a h2, ld_x q h1 = (h1, Ok a) /\ load a h1 = (h1, Ok (lx y)) /\ write a x h1 = (h2, Ok ()) /\ working h h2 q (Larry x (llabel y)).
Proof. intros Hw (Ht & Hs & Hl). by apply w_write_x. Qed.
Lemma gives_h_cum h p y op axis : read_larry h p = Some y -> sized (lx y) -> gives h (h_cum op p axis) (larry_cum op y axis).
Proof.
  intros Hp Hz. unfold h_cum, larry_cum. destruct axis as [axis|]; [|by apply gives_err].
  destruct (h_copy_ok h h p y (ext_refl h) Hp) as (h1 & q & Hc & _ & Hw).
  assert (ext h h1) as He1 by apply Hw.
  destruct (w_ld_x h h1 q y Hw) as (a & Ha & _ & Hla).
  destruct (test_mask is_nan (lx y)) as [idx|e] eqn:Hidx; cbn [mbind res_bind]; [|exists h1; split; [by fails|done]].
  destruct (test_mask_sized _ _ _ Hz Hidx) as [Hwi Hsi].
  destruct (putmask_scalar (lx y) idx (VInt match op with SpecNum.CSum => 0 | SpecNum.CProd => 1 end)) as [x1|e] eqn:Hx1; cbn [mbind res_bind].
  2:{ exists h1; split; [by fails|done]. }
  destruct (putmask_over _ _ _ _ Hz Hwi Hsi Hx1) as [Ho1 Hz1].
  destruct (w_write_over h h1 q y x1 Hw Ho1) as (a' & h2 & Ha' & _ & Hwr & Hw2). rewrite Ha in Ha'. injection Ha' as <-.
  destruct (np_cum op x1 axis) as [x2|e] eqn:Hx2; cbn [mbind res_bind].
  2:{ exists h2; split; [by fails|apply Hw2]. }
  destruct (np_cum_sized _ _ _ _ Hz1 Hx2) as [Hz2 Hs2].
  destruct (w_assign h h2 q _ x2 Hw2) as (h3 & b & h4 & Hal & _ & Hsx & (o & Hob) & Hw4). simpl in Hw4.
  destruct (any_true idx) eqn:Hany.
  - destruct (putmask_scalar x2 idx (VFloat NaN)) as [x3|e] eqn:Hx3; cbn [mbind res_bind].
    2:{ exists h4. split; [|apply Hw4]. runs. rewrite Hany. by fails. }
    destruct (putmask_over x2 idx (VFloat NaN) x3 Hz2 Hwi) as [(Ht3 & Hs3 & Hn3) _]; [|done|].
    { rewrite Hsi, Hs2. symmetry. apply Ho1. }
    destruct (w_write h h4 q _ b o x3 Hw4 Hob) as (h5 & Hwr5 & Hw5); [done..|].
    eapply working_gives; [|exact Hw5]. runs. rewrite Hany. by runs.
  - cbn [mbind res_bind]. eapply working_gives; [|exact Hw4]. runs. by rewrite Hany.
Qed.
Lemma working_base h h1 h2 q y : ext h h1 -> working h1 h2 q y -> working h h2 q y.
Proof.
  intros He (He' & Hq & a & o & Hob & (Hl & Hl') & (Ha & Ha')). pose proof (ext_le _ _ He) as (? & ? & ? & ?).
  split; [by eapply ext_trans|]. split; [lia|]. exists a, o. split; [done|]. split; [split; [lia|done]|split; [lia|done]].
Qed.
Lemma reduce_sized {A B} (f : list A -> B) (a : arr A) ax b : reduce f a ax = Some b -> arr_wf b /\ shape b = remove_at ax (shape a).
Proof. unfold reduce. intros (n & _ & H)%bind_Some. by apply build_Some in H as (? & ? & _). Qed.
(** What [prod] reduces has the size of its argument. *)
Lemma reduce_out_sized op y axis z : larry_reduce op y axis = Ok (OLar z) ->
  exists a ax, axis = Some a /\ py_index (lndim y) a = Some ax /\ sized (lx z) /\ lshape z = remove_at ax (lshape y).
Proof.
  intros H. unfold larry_reduce in H. case_decide.
  - destruct axis as [a|]; [|done]. apply bind_ok in H as (ax & Ha%of_opt_ok & H). exists a, ax. split; [done|]. split; [done|].
    case_match; [done|]. apply bind_ok in H as (? & _ & [= <-]). split; [apply full_wf|done].
  - apply bind_ok in H as (dt & _ & H). destruct axis as [a|]; [|done]. apply bind_ok in H as (ax & Ha%of_opt_ok & H).
    apply bind_ok in H as (b & Hb%of_opt_ok & H). exists a, ax. split; [done|]. split; [done|]. apply reduce_sized in Hb as [Hwb Hsb].
    unfold as_out in H. case_match; [by apply bind_ok in H as (? & _ & ?)|]. by injection H as <-.
Qed.
Lemma gives_h_prod h p y axis : read_larry h p = Some y -> sized (lx y) ->
  gives_out h (h_prod p axis) (o ← larry_prod y axis; Ok (out_larrys o)).
Proof.
  intros Hp Hz. unfold h_prod, larry_prod.
  destruct (h_copy_ok h h p y (ext_refl h) Hp) as (h1 & q & Hc & _ & Hw).
  assert (ext h h1) as He1 by apply Hw.
  destruct (w_ld_x h h1 q y Hw) as (a & Ha & _ & Hla).
  destruct (test_mask is_nan (lx y)) as [idx|e] eqn:Hidx; cbn [mbind res_bind]; [|exists h1; split; [by fails|done]].
  destruct (test_mask_sized _ _ _ Hz Hidx) as [Hwi Hsi].
  destruct (putmask_scalar (lx y) idx (VInt 1)) as [x1|e] eqn:Hx1; cbn [mbind res_bind].
  2:{ exists h1; split; [by fails|done]. }
  destruct (putmask_over _ _ _ _ Hz Hwi Hsi Hx1) as [Ho1 Hz1].
  destruct (w_write_over h h1 q y x1 Hw Ho1) as (a' & h2 & Ha' & _ & Hwr & Hw2). rewrite Ha in Ha'. injection Ha' as <-.
  apply working_has in Hw2 as Hq2. destruct Hq2 as [He2 [Hq2 _]].
  pose proof (outs_reduce h2 q _ (fun y => larry_reduce RProd y axis) axis Hq2 (reduced_reduce _ _ _)) as Hred.
  cbn beta in Hred. change (nd_ndim (lx y)) with (lndim y). unfold outs in Hred.
  assert (exists h3 rs, match larry_reduce RProd (Larry x1 (llabel y)) axis with
      | Err e => h_reduce (fun y => larry_reduce RProd y axis) q axis h2 = (h2, Err e)
      | Ok r => h_reduce (fun y => larry_reduce RProd y axis) q axis h2 = (h3, Ok rs) /\ ext h h3 /\
          match r with OLar z => exists s, rs = [HLarry s] /\ working h h3 s z | OVal v => rs = [HScalar v] end
      end) as (h3 & rs & Hr).
  { destruct (larry_reduce RProd (Larry x1 (llabel y)) axis) as [[z|v]|e] eqn:Hlr.
    - destruct Hred as (h3 & s & Hrun & Hw3). exists h3, [HLarry s]. split; [done|].
      pose proof (working_base _ _ _ _ _ He2 Hw3) as Hw3'. split; [apply Hw3'|]. by exists s.
    - exists h2, [HScalar v]. done.
    - by exists h2, []. }
  clear Hred. destruct (larry_reduce RProd (Larry x1 (llabel y)) axis) as [r|e] eqn:Hlr; cbn [mbind res_bind].
  2:{ exists h2. split; [|done]. by fails. }
  destruct Hr as (Hrun & He3 & Hr).
  assert (Forall2 (has h3) (larrys_of rs) (out_larrys r)) as Hrs.
  { destruct r as [z|v]; [|subst rs; constructor]. destruct Hr as (s & -> & Hs). apply working_has in Hs as [_ Hs]. by constructor. }
  destruct axis as [axis|]; cbn [mbind res_bind].
  2:{ destruct (forallb id (data idx)) eqn:Hall; cbn [mbind res_bind out_larrys].
      - exists h3, [HScalar (VFloat NaN)]. split; [runs; by rewrite Hall|]. split; [done|constructor].
      - exists h3, rs. split; [runs; by rewrite Hall|]. done. }
  destruct (py_index (lndim y) axis) as [ax|] eqn:Hax; cbn [of_opt mbind res_bind].
  2:{ exists h3. split; [|done]. by fails. }
  destruct (reduce (forallb id) idx ax) as [m|] eqn:Hm; cbn [of_opt mbind res_bind].
  2:{ exists h3. split; [|done]. by fails. }
  apply reduce_sized in Hm as Hm'. destruct Hm' as [Hwm Hsm].
  destruct (shape m) as [|n sh] eqn:Esm; cbn [mbind res_bind].
  { destruct (forallb id (data m)) eqn:Hall; cbn [mbind res_bind out_larrys].
    - exists h3, [HScalar (VFloat NaN)]. split; [runs; rewrite Esm, Hall; done|]. split; [done|constructor].
    - exists h3, rs. split; [runs; rewrite Esm, Hall; done|]. done. }
  destruct r as [z|v].
  2:{ subst rs. exists h3. split; [|done]. runs. by rewrite Esm. }
  destruct Hr as (s & -> & Hws). cbn [mbind res_bind].
  destruct (w_ld_x h h3 s z Hws) as (b & Hb & _ & Hlb).
  destruct (putmask_scalar (lx z) m (VFloat NaN)) as [x3|e] eqn:Hx3; cbn [mbind res_bind].
  2:{ exists h3. split; [|done]. runs. rewrite Esm. by fails. }
  apply reduce_out_sized in Hlr as (a0 & ax0 & [= <-] & Hax0 & Hzz & Hsz).
  change (lndim (Larry x1 (llabel y))) with (length (nd_shape x1)) in Hax0. destruct Ho1 as (_ & Hs1 & _). rewrite Hs1 in Hax0.
  change (length (nd_shape (lx y))) with (lndim y) in Hax0. rewrite Hax in Hax0. injection Hax0 as <-.
  destruct (putmask_over (lx z) m (VFloat NaN) x3 Hzz Hwm) as [Ho3 _]; [|done|].
  { rewrite Esm, Hsm, Hsi. change (nd_shape (lx z)) with (lshape z). rewrite Hsz. unfold lshape. simpl. by rewrite Hs1. }
  destruct (w_write_over h h3 s z x3 Hws Ho3) as (b' & h4 & Hb' & _ & Hwr4 & Hw4). rewrite Hb in Hb'. injection Hb' as <-.
  exists h4, [HLarry s]. apply working_has in Hw4 as [He4 Hh4]. split; [|split; [done|by constructor]]. runs. rewrite Esm. by runs.
Qed.
Lemma gives_h_compare h p1 p2 y1 y2 op : read_larry h p1 = Some y1 -> read_larry h p2 = Some y2 ->
  gives_out h (h_compare op p1 p2) (o ← larry_compare op y1 (OpLarry y2); Ok (out_larrys o)).
Proof.
  intros H1 H2. apply outs_gives. unfold outs, h_compare, one. destruct (larry_compare op y1 (OpLarry y2)) as [[z|v]|e] eqn:Hr.
  - destruct (h_new_ok h h z (ext_refl h)) as (h1 & q & Hq & _ & Hw). exists h1, q. split; [by runs|done].
  - by runs.
  - by fails.
Qed.

(** * align, align_axis, binaryop *)

(** One of the two arrays being aligned: still that of the larry ([v]), or new. *)
Definition side (h h1 : heap) (a : harr) (v : bool) (x : nda) : Prop :=
  read_arr h1 a = Some x /\ (v = false -> arr_ok h h1 a x).
Lemma side_ext h h1 h2 a v x : ext h1 h2 -> side h h1 a v x -> side h h2 a v x.
Proof.
  intros He [Hr Hv]. split; [eapply read_arr_prefix; [|exact Hr]; apply He|].
  intros H. eapply arr_ok_ext; [exact He|by apply Hv].
Qed.
Definition aligning (h h1 : heap) (s : hal) : Prop :=
  ext h h1 /\ side h h1 (hal_x1 s) (al_view1 (hal_st s)) (al_x1 (hal_st s)) /\ side h h1 (hal_x2 s) (al_view2 (hal_st s)) (al_x2 (hal_st s)) /\
  (al_view1 (hal_st s) = false -> al_view2 (hal_st s) = false -> a_buf (hal_x1 s) <> a_buf (hal_x2 s)).
Lemma read_arr_lt h a x : read_arr h a = Some x -> a_buf a < length (h_bufs h).
Proof. intros (d & Hd & _)%read_arr_rel. by eapply lookup_lt_Some. Qed.
Lemma align_step_moves lar1 lar2 cast js st ax st' : align_step lar1 lar2 cast js st ax = Ok st' ->
  exists j, js !! ax = Some j /\
    let moved := bool_decide (llabel lar1 !! ax <> llabel lar2 !! ax) in
    (if moved && took1 j then al_view1 st' = false else al_x1 st' = al_x1 st /\ al_view1 st' = al_view1 st) /\
    (if moved && took2 j then al_view2 st' = false else al_x2 st' = al_x2 st /\ al_view2 st' = al_view2 st).
Proof.
  destruct st as [x1 m1 v1 x2 m2 v2 label]. unfold align_step. intros H.
  apply bind_ok in H as (l1 & Hl1%of_opt_ok & H). apply bind_ok in H as (l2 & Hl2%of_opt_ok & H).
  apply bind_ok in H as (j & Hj%of_opt_ok & H). exists j. split; [done|]. rewrite Hl1, Hl2. cbn zeta.
  destruct (decide (l1 = l2)) as [->|Hne].
  - rewrite bool_decide_false by (by intros Hx). simpl. destruct j; try done; rewrite ?decide_True in H by done; by injection H as <-.
  - rewrite bool_decide_true by congruence. simpl. destruct j; simpl; try done; rewrite ?decide_False in H by done.
    + repeat (apply bind_ok in H as (? & _ & H)). by injection H as <-.
    + apply bind_ok in H as (l3 & _ & H). destruct (listmap_fill l1 l3 0), (listmap_fill l2 l3 0).
      repeat (apply bind_ok in H as (? & _ & H)). by injection H as <-.
    + repeat (apply bind_ok in H as (? & _ & H)). by injection H as <-.
    + repeat (apply bind_ok in H as (? & _ & H)). by injection H as <-.
    + by injection H as <-.
Qed.
Lemma side_step h h1 a v x (b : bool) x' v' : ext h h1 -> side h h1 a v x ->
  (if b then v' = false else x' = x /\ v' = v) ->
  exists h2 a', (if b then alloc x' else ret a) h1 = (h2, Ok a') /\ ext h1 h2 /\ side h h2 a' v' x' /\
    (if b then length (h_bufs h1) <= a_buf a' else a' = a).
Proof.
  intros He Hs Hb. destruct b.
  - destruct (alloc_ok h h1 x' He) as (h2 & a' & Ha & He2 & _ & Hx). exists h2, a'. split; [done|]. split; [done|].
    split; [split; [apply Hx|done]|]. rewrite alloc_run in Ha. injection Ha as _ <-. done.
  - destruct Hb as [-> ->]. exists h1, a. split; [done|]. split; [apply ext_refl|done].
Qed.
Lemma w_align_step h h1 lar1 lar2 cast js s ax : aligning h h1 s ->
  match align_step lar1 lar2 cast js (hal_st s) ax with
  | Ok st => exists h2 s', h_align_step lar1 lar2 cast js s ax h1 = (h2, Ok s') /\ hal_st s' = st /\ aligning h h2 s'
  | Err e => h_align_step lar1 lar2 cast js s ax h1 = (h1, Err e)
  end.
Proof.
  intros (He & H1 & H2 & H12). unfold h_align_step. destruct (align_step lar1 lar2 cast js (hal_st s) ax) as [st|e] eqn:Hst; [|by fails].
  apply align_step_moves in Hst as Hmv. destruct Hmv as (j & Hj & Hm1 & Hm2).
  set (moved := bool_decide _) in *. clearbody moved.
  destruct (side_step h h1 _ _ _ _ (al_x1 st) _ He H1 Hm1) as (h2 & a1 & Hr1 & He2 & Hs1 & Hn1).
  destruct (side_step h h2 _ _ _ _ (al_x2 st) _ (ext_trans _ _ _ He He2) (side_ext _ _ _ _ _ _ He2 H2) Hm2) as (h3 & a2 & Hr2 & He3 & Hs2 & Hn2).
  exists h3, (Hal a1 a2 st). split; [by runs|]. split; [done|]. split; [eapply ext_trans; [exact He|by eapply ext_trans]|].
  split; [by eapply side_ext|]. split; [done|]. cbn [hal_st hal_x1 hal_x2]. intros Hv1 Hv2.
  pose proof (read_arr_lt _ _ _ (proj1 Hs1)) as Hlt1. pose proof (read_arr_lt _ _ _ (proj1 H2)) as Hlt2.
  destruct (moved && took2 j); [lia|]. subst a2. destruct (moved && took1 j); [lia|]. subst a1. apply H12; [by rewrite <-(proj2 Hm1)|by rewrite <-(proj2 Hm2)].
Qed.
Lemma w_align_steps h lar1 lar2 cast js l : forall h1 s, aligning h h1 s ->
  match foldM (align_step lar1 lar2 cast js) (hal_st s) l with
  | Ok st => exists h2 s', foldC (h_align_step lar1 lar2 cast js) s l h1 = (h2, Ok s') /\ hal_st s' = st /\ aligning h h2 s'
  | Err e => exists h2, foldC (h_align_step lar1 lar2 cast js) s l h1 = (h2, Err e) /\ ext h h2
  end.
Proof.
  induction l as [|ax l IH]; intros h1 s Hs; simpl.
  - by exists h1, s.
  - pose proof (w_align_step h h1 lar1 lar2 cast js s ax Hs) as Hx.
    destruct (align_step lar1 lar2 cast js (hal_st s) ax) as [st|e]; simpl.
    + destruct Hx as (h2 & s' & Hx & <- & Hs'). specialize (IH h2 s' Hs').
      destruct (foldM _ (hal_st s') l).
      * destruct IH as (h3 & s'' & H3 & Hst & Hs''). exists h3, s''. split; [by runs|done].
      * destruct IH as (h3 & H3 & He3). exists h3. split; [by runs|done].
    + exists h1. split; [by fails|apply Hs].
Qed.
Lemma w_align_raw h p1 p2 lar1 lar2 j cast : read_larry h p1 = Some lar1 -> read_larry h p2 = Some lar2 ->
  match align_raw lar1 lar2 j cast with
  | Ok st => exists h2 s', h_align_raw p1 p2 j cast h = (h2, Ok s') /\ hal_st s' = st /\ aligning h h2 s'
  | Err e => exists h2, h_align_raw p1 p2 j cast h = (h2, Err e) /\ ext h h2
  end.
Proof.
  intros H1 H2. unfold h_align_raw, align_raw.
  assert (forall (m : cmd hal), (forall r, m h = r -> (lar1 ← value p1; lar2 ← value p2; m) h = r)) as Hv by (intros m r <-; by runs).
  pose proof H1 as (ob1 & is1 & Hob1 & Hx1 & _)%read_larry_Some. pose proof H2 as (ob2 & is2 & Hob2 & Hx2 & _)%read_larry_Some.
  destruct (decide (lndim lar1 <> lndim lar2)) as [Hn|Hn].
  { exists h. split; [runs; by rewrite decide_True by done|apply ext_refl]. }
  set (rj := match j with JOne j => _ | JList js => _ | JOther => _ end).
  destruct rj as [js|e] eqn:Hrj; cbn [mbind res_bind].
  2:{ exists h. split; [|apply ext_refl]. runs. rewrite decide_False by done. unfold rj in Hrj. by fails. }
  assert (ld_x p1 h = (h, Ok (o_x ob1))) as Hl1 by (unfold ld_x, look; by rewrite Hob1).
  assert (ld_x p2 h = (h, Ok (o_x ob2))) as Hl2 by (unfold ld_x, look; by rewrite Hob2).
  pose proof (w_align_steps h lar1 lar2 cast js (seq 0 (lndim lar2)) h
    (Hal (o_x ob1) (o_x ob2) (AlignSt (lx lar1) None true (lx lar2) None true []))) as Hf.
  simpl in Hf. specialize (Hf ltac:(split; [apply ext_refl|split; [split; [done|done]|split; [split; [done|done]|done]]])). unfold rj in Hrj.
  destruct (foldM _ _ _) as [st|e].
  - destruct Hf as (h2 & s' & Hf & Hst & Ha). exists h2, s'. split; [|done]. runs. rewrite decide_False by done. by runs.
  - destruct Hf as (h2 & Hf & Ha). exists h2. split; [|done]. runs. rewrite decide_False by done. by runs.
Qed.
Lemma mapC_new_list_ok h h1 (label : list (list lab)) : ext h h1 ->
  exists h2 is h3 o, mapC new_list label h1 = (h2, Ok is) /\ new_outer is h2 = (h3, Ok o) /\ ext h1 h3 /\ lab_ok h h3 o label.
Proof.
  intros He. eexists _, _, _, _. split; [apply mapC_new_list|]. split; [apply new_outer_run|]. rewrite grow_grow. simpl.
  rewrite !app_nil_r. split; [apply grow_ext|]. apply lab_ok_fresh. by apply ext_le.
Qed.
Lemma w_own h h1 a v x label : ext h h1 -> side h h1 a v x ->
  exists h2 q, h_own a v label h1 = (h2, Ok q) /\ ext h1 h2 /\ working h h2 q (Larry x label).
Proof.
  intros He [Hr Hv]. unfold h_own.
  assert (exists h2 b, (if v then x ← load a; alloc x else ret a) h1 = (h2, Ok b) /\ ext h1 h2 /\ arr_ok h h2 b x) as (h2 & b & Hb & He2 & Hxb).
  { destruct v.
    - destruct (alloc_ok h h1 x He) as (h2 & b & Hb & He2 & _ & Hx). exists h2, b. split; [|done].
      erewrite bind_run; [exact Hb|]. unfold load, look. by rewrite Hr.
    - exists h1, a. split; [done|]. split; [apply ext_refl|by apply Hv]. }
  destruct (mapC_new_list_ok h h2 label (ext_trans _ _ _ He He2)) as (h3 & is & h4 & o & Hm & Hno & He4 & Hl).
  destruct (new_obj_ok h h4 b o x label) as (h5 & q & Hq & Hw); [eapply ext_trans; [exact He|by eapply ext_trans]|done|by eapply arr_ok_ext|].
  exists h5, q. split; [by runs|]. split; [|done]. rewrite new_obj_run in Hq. injection Hq as <- _.
  eapply ext_trans; [exact He2|]. eapply ext_trans; [exact He4|apply grow_ext].
Qed.
Lemma h_own_run h1 a v x label h2 q : read_arr h1 a = Some x -> h_own a v label h1 = (h2, Ok q) ->
  exists b o, ext h1 h2 /\ length (h_objs h1) <= q /\ h_objs h2 !! q = Some (HObj b o) /\ lab_ok h1 h2 o label /\ a_buf b < length (h_bufs h2) /\
    (if v then length (h_bufs h1) <= a_buf b else b = a) /\
    forall is, h_outers h2 !! o = Some is -> Forall (fun i => length (h_lists h1) <= i) is.
Proof.
  intros Hr Hq0. unfold h_own in Hq0.
  assert (exists h3 b, (if v then x ← load a; alloc x else ret a) h1 = (h3, Ok b) /\ ext h1 h3 /\ read_arr h3 b = Some x /\
    (if v then length (h_bufs h1) <= a_buf b else b = a)) as (h3 & b & Hb & He & Hbr & Hn).
  { destruct v; [|exists h1, a; split; [done|]; split; [apply ext_refl|done]].
    destruct (alloc_ok h1 h1 x (ext_refl h1)) as (h3 & b & Ha & He & _ & Hx). exists h3, b. split; [|split; [done|split; apply Hx]].
    erewrite bind_run; [exact Ha|]. unfold load, look. by rewrite Hr. }
  destruct (mapC_new_list_ok h1 h3 label He) as (h4 & is & h5 & o & Hm & Hno & He5 & Hl).
  erewrite bind_run in Hq0 by exact Hb. erewrite bind_run in Hq0 by exact Hm. erewrite bind_run in Hq0 by exact Hno.
  rewrite new_obj_run in Hq0. injection Hq0 as <- <-. exists b, o.
  assert (ext h1 h5) as H15 by (by eapply ext_trans). split; [eapply ext_trans; [exact H15|apply grow_ext]|].
  split; [apply prefix_length, H15|]. split; [simpl; by rewrite lookup_app_r, Nat.sub_diag by lia|].
  split; [eapply lab_ok_ext; [apply grow_ext|done]|]. split; [|split; [done|]].
  - apply read_arr_lt in Hbr.
    assert (length (h_bufs h3) <= length (h_bufs h5)) by (by apply prefix_length, He5). simpl. rewrite app_length. simpl. lia.
  - rewrite mapC_new_list in Hm. injection Hm as <- <-. rewrite new_outer_run in Hno. injection Hno as <- <-. intros is0. simpl.
    rewrite app_nil_r. rewrite lookup_app_l by (rewrite app_length; simpl; rewrite ?app_nil_r; lia).
    rewrite lookup_app_r, ?app_nil_r by (rewrite ?app_nil_r; lia). rewrite Nat.sub_diag. intros [= <-]. apply Forall_forall. intros i Hi.
    unfold fresh_lists in Hi. apply elem_of_seq in Hi. assert (length (h_lists h1) <= length (h_lists h3)) by (by apply prefix_length, He). lia.
Qed.
Lemma gives_h_align h p1 p2 lar1 lar2 j cast : read_larry h p1 = Some lar1 -> read_larry h p2 = Some lar2 ->
  gives_out h (h_align p1 p2 j cast) (p ← align lar1 lar2 j cast; Ok [p.1; p.2]).
Proof.
  intros H1 H2. unfold h_align, align. pose proof (w_align_raw h p1 p2 lar1 lar2 j cast H1 H2) as Hr.
  destruct (align_raw lar1 lar2 j cast) as [st|e]; cbn [mbind res_bind].
  2:{ destruct Hr as (h2 & Hr & He). exists h2. split; [by fails|done]. }
  destruct Hr as (h2 & s & Hr & <- & (He & Hs1 & Hs2 & _)).
  destruct (own_label lar1 (al_label (hal_st s))) as [label1|e] eqn:Hl1; cbn [mbind res_bind]; [|exists h2; split; [by fails|done]].
  destruct (own_label lar2 (al_label (hal_st s))) as [label2|e] eqn:Hl2; cbn [mbind res_bind]; [|exists h2; split; [by fails|done]].
  destruct (w_own h h2 _ _ _ label1 He Hs1) as (h3 & q1 & Hq1 & He3 & Hw1).
  destruct (w_own h h3 _ _ _ label2 (ext_trans _ _ _ He He3) (side_ext _ _ _ _ _ _ He3 Hs2)) as (h4 & q2 & Hq2 & He4 & Hw2).
  exists h4, [HLarry q1; HLarry q2]. split; [by runs|]. split; [apply Hw2|]. simpl.
  apply working_has in Hw1 as [_ Hw1], Hw2 as [_ Hw2]. constructor; [by eapply has_ext|]. by constructor.
Qed.
Lemma gives_h_binaryop h p1 p2 lar1 lar2 func j cast : read_larry h p1 = Some lar1 -> read_larry h p2 = Some lar2 ->
  gives h (h_binaryop func p1 p2 j cast None None)
    (p ← binaryop func lar1 lar2 j cast None None; label ← of_opt NotImplementedError (mapM (fun o => o) p.2); Ok (Larry p.1 label)).
Proof.
  intros H1 H2. unfold h_binaryop, binaryop. pose proof (w_align_raw h p1 p2 lar1 lar2 j cast H1 H2) as Hr.
  destruct (align_raw lar1 lar2 j cast) as [st|e]; cbn [mbind res_bind].
  2:{ destruct Hr as (h2 & Hr & He). exists h2. split; [by fails|done]. }
  destruct Hr as (h2 & s & Hr & <- & (He & [Hx1 _] & [Hx2 _] & _)).
  assert (load (hal_x1 s) h2 = (h2, Ok (al_x1 (hal_st s)))) as Hl1 by (unfold load, look; by rewrite Hx1).
  assert (load (hal_x2 s) h2 = (h2, Ok (al_x2 (hal_st s)))) as Hl2 by (unfold load, look; by rewrite Hx2).
  rewrite decide_False by (intros [[]  _]; done). cbn [mbind res_bind fst snd].
  destruct (func (al_x1 (hal_st s)) (al_x2 (hal_st s))) as [x|e] eqn:Hf; cbn [mbind res_bind fst snd].
  2:{ exists h2. split; [|done]. runs. rewrite decide_False by (intros [[] _]; done). by fails. }
  destruct (mapM (fun o => o) (al_label (hal_st s))) as [label|] eqn:Hm; cbn [of_opt mbind res_bind].
  2:{ exists h2. split; [|done]. runs. rewrite decide_False by (intros [[] _]; done). by fails. }
  destruct (h_new_ok h h2 (Larry x label) He) as (h3 & q & Hq & _ & Hw).
  eapply working_gives; [|exact Hw]. runs. rewrite decide_False by (intros [[] _]; done). by runs.
Qed.
