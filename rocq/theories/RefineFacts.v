(** The calls of Heap.v compute the values of the value model. *)
From Verif Require Export HeapFacts.

(** * Functions that only move elements *)

(** Arrays of one shape whose elements are related. *)
Definition arel {A B} (R : A -> B -> Prop) (a : arr A) (b : arr B) : Prop :=
  shape a = shape b /\ Forall2 R (data a) (data b).
(** Both fail with the same exception or both succeed with related results. *)
Definition rrel {A B} (R : A -> B -> Prop) (r : res A) (s : res B) : Prop :=
  match r, s with
  | Ok a, Ok b => R a b
  | Err e, Err e' => e = e'
  | _, _ => False
  end.

Section moves.
Context {A B} (R : A -> B -> Prop).
Lemma arel_aget a b idx : arel R a b -> option_Forall2 R (aget a idx) (aget b idx).
Proof.
  intros [Hs Hd]. unfold aget. rewrite Hs. destruct (decide _); [|constructor]. by apply Forall2_lookup.
Qed.
Lemma mapM_rel {X} (f : X -> option A) (g : X -> option B) l : (forall x, option_Forall2 R (f x) (g x)) ->
  option_Forall2 (Forall2 R) (mapM f l) (mapM g l).
Proof.
  intros Hfg. induction l as [|x l IH]; simpl.
  - repeat constructor.
  - destruct (Hfg x) as [a b Hab|]; simpl; [|constructor]. destruct IH; simpl; repeat constructor; done.
Qed.
Lemma build_rel sh f g : (forall x, option_Forall2 R (f x) (g x)) -> option_Forall2 (arel R) (build sh f) (build sh g).
Proof.
  intros H. unfold build. destruct (mapM_rel f g (indices sh) H); simpl; constructor. by split.
Qed.
Lemma gather_rel a b sh m : arel R a b -> option_Forall2 (arel R) (gather a sh m) (gather b sh m).
Proof.
  intros H. apply build_rel. intros idx. destruct (m idx); simpl; [by apply arel_aget|constructor].
Qed.
Lemma of_opt_rel {X Y} (S : X -> Y -> Prop) e o o' : option_Forall2 S o o' -> rrel S (of_opt e o) (of_opt e o').
Proof. by intros []. Qed.
Lemma take_pos_rel a b ids ax : arel R a b -> option_Forall2 (arel R) (take_pos a ids ax) (take_pos b ids ax).
Proof.
  intros H. unfold take_pos, axlen. destruct H as [Hs Hd] eqn:E. rewrite Hs. clear E.
  destruct (shape b !! ax); simpl; [|constructor]. destruct (decide _); [|constructor]. by apply gather_rel.
Qed.
Lemma slice_axis_rel a b s ax : arel R a b -> rrel (arel R) (slice_axis a s ax) (slice_axis b s ax).
Proof.
  intros H. unfold slice_axis, axlen. rewrite (proj1 H). destruct (shape b !! ax); simpl; [|done].
  destruct (slice_positions s n); simpl; [|done]. by apply of_opt_rel, take_pos_rel.
Qed.
Lemma transpose_rel a b : arel R a b -> option_Forall2 (arel R) (transpose a) (transpose b).
Proof. intros H. unfold transpose. rewrite (proj1 H). by apply gather_rel. Qed.
Lemma np_swapaxes_rel a b i j : arel R a b -> option_Forall2 (arel R) (np_swapaxes a i j) (np_swapaxes b i j).
Proof.
  intros H. unfold np_swapaxes. rewrite (proj1 H). destruct (swap_at i j (shape b)); simpl; [|constructor]. by apply gather_rel.
Qed.
Lemma np_squeeze_rel a b : arel R a b -> arel R (np_squeeze a) (np_squeeze b).
Proof. intros [Hs Hd]. split; simpl; [by rewrite Hs|done]. Qed.
Lemma expand_dims_rel a b z : arel R a b -> arel R (expand_dims a z) (expand_dims b z).
Proof. intros [Hs Hd]. split; simpl; [|done]. unfold ndim. by rewrite Hs. Qed.
Lemma pick_axis_rel a b i ax : arel R a b -> option_Forall2 (arel R) (pick_axis a i ax) (pick_axis b i ax).
Proof.
  intros H. unfold pick_axis, axlen. rewrite (proj1 H). destruct (shape b !! ax); simpl; [|constructor]. by apply gather_rel.
Qed.
Lemma np_getitem_rel a b items : arel R a b -> rrel (arel R) (np_getitem a items) (np_getitem b items).
Proof.
  intros H. unfold np_getitem. rewrite (proj1 H). destruct (np_select _ _); simpl; [|done]. by apply of_opt_rel, gather_rel.
Qed.
End moves.

Definition in_buf (d : list val) (i : nat) (v : val) : Prop := d !! i = Some v.
Lemma read_arr_rel h a x : read_arr h a = Some x <->
  exists d, h_bufs h !! a_buf a = Some (nd_dtype x, d) /\ arel (in_buf d) (a_pos a) (nd_arr x).
Proof.
  unfold read_arr, arel, in_buf. split.
  - destruct (h_bufs h !! a_buf a) as [[dt d]|] eqn:Hb; simpl; [|done].
    destruct (mapM _ _) as [vs|] eqn:Hm; simpl; [|done]. intros [= <-]. simpl. exists d.
    split; [done|]. split; [done|]. by apply mapM_Some in Hm.
  - intros (d & Hb & Hs & Hd). rewrite Hb. simpl. apply mapM_Some in Hd. rewrite Hd. simpl. rewrite Hs.
    by destruct x as [dt [sh dd]].
Qed.
(** A view reads what the function makes of the array. *)
Lemma view_run f (g : arr val -> res (arr val)) a h x :
  (forall d b, arel (in_buf d) (a_pos a) b -> rrel (arel (in_buf d)) (f (a_pos a)) (g b)) ->
  read_arr h a = Some x ->
  match g (nd_arr x) with
  | Ok b => exists q, view f a h = (h, Ok (HArr (a_buf a) q)) /\ read_arr h (HArr (a_buf a) q) = Some (Nda (nd_dtype x) b)
  | Err e => view f a h = (h, Err e)
  end.
Proof.
  intros Hfg Hx. apply read_arr_rel in Hx as (d & Hb & Hr). specialize (Hfg d _ Hr). unfold view, mbind, cmd_bind, lift.
  destruct (f (a_pos a)) as [q|e], (g (nd_arr x)) as [b|e']; simpl in Hfg; try done.
  - exists q. split; [done|]. apply read_arr_rel. by exists d.
  - by rewrite Hfg.
Qed.

(** * Appending to memory *)

Definition grow (h : heap) bs ls os obs : heap :=
  Heap (h_bufs h ++ bs) (h_lists h ++ ls) (h_outers h ++ os) (h_objs h ++ obs).
Lemma grow_grow h bs ls os obs bs' ls' os' obs' :
  grow (grow h bs ls os obs) bs' ls' os' obs' = grow h (bs ++ bs') (ls ++ ls') (os ++ os') (obs ++ obs').
Proof. unfold grow. simpl. by rewrite !app_assoc. Qed.
Lemma grow_nil h : grow h [] [] [] [] = h.
Proof. unfold grow. rewrite !app_nil_r. by destruct h. Qed.
Lemma grow_ext h bs ls os obs : ext h (grow h bs ls os obs).
Proof. repeat split; by eexists. Qed.
Lemma bind_run {A B} (m : cmd A) (f : A -> cmd B) h h' a : m h = (h', Ok a) -> (x ← m; f x) h = f a h'.
Proof. intros H. unfold mbind, cmd_bind. by rewrite H. Qed.
Lemma bind_fail {A B} (m : cmd A) (f : A -> cmd B) h h' e : m h = (h', Err e) -> (x ← m; f x) h = (h', Err e).
Proof. intros H. unfold mbind, cmd_bind. by rewrite H. Qed.

Lemma read_larry_Some h p y : read_larry h p = Some y <->
  exists ob is, h_objs h !! p = Some ob /\ read_arr h (o_x ob) = Some (lx y) /\
    h_outers h !! o_label ob = Some is /\ mapM (h_lists h !!.) is = Some (llabel y).
Proof.
  unfold read_larry, read_label. split.
  - destruct (h_objs h !! p) as [ob|]; simpl; [|done]. destruct (read_arr _ _) as [x|] eqn:Hx; simpl; [|done].
    destruct (h_outers h !! _) as [is|] eqn:His; simpl; [|done]. destruct (mapM _ is) as [l|] eqn:Hl; simpl; [|done].
    intros [= <-]. by exists ob, is.
  - intros (ob & is & -> & Hx & Ho & Hl). simpl. rewrite Hx. simpl. rewrite Ho. simpl. rewrite Hl. by destruct y.
Qed.

Definition buf_of (x : nda) : dtype * list val := (nd_dtype x, data (nd_arr x)).
Definition whole (b : nat) (x : nda) : harr := HArr b (Arr (nd_shape x) (seq 0 (length (data (nd_arr x))))).
Lemma read_whole h b x : h_bufs h !! b = Some (buf_of x) -> read_arr h (whole b x) = Some x.
Proof.
  intros Hb. apply read_arr_rel. exists (data (nd_arr x)). split; [done|]. split; [done|]. simpl.
  apply Forall2_same_length_lookup_2; [by rewrite seq_length|].
  intros i j v Hj Hv. apply lookup_seq in Hj as [-> _]. exact Hv.
Qed.
Lemma alloc_run x h : alloc x h = (grow h [buf_of x] [] [] [], Ok (whole (length (h_bufs h)) x)).
Proof. unfold alloc, grow. by rewrite !app_nil_r. Qed.
Lemma new_list_run l h : new_list l h = (grow h [] [l] [] [], Ok (length (h_lists h))).
Proof. unfold new_list, grow. by rewrite !app_nil_r. Qed.
Lemma new_outer_run is h : new_outer is h = (grow h [] [] [is] [], Ok (length (h_outers h))).
Proof. unfold new_outer, grow. by rewrite !app_nil_r. Qed.
Lemma new_obj_run a o h : new_obj a o h = (grow h [] [] [] [HObj a o], Ok (length (h_objs h))).
Proof. unfold new_obj, grow. by rewrite !app_nil_r. Qed.
Lemma mapC_new_list ls h : mapC new_list ls h = (grow h [] ls [] [], Ok (seq (length (h_lists h)) (length ls))).
Proof.
  revert h. induction ls as [|l ls IH]; intros h; simpl.
  - by rewrite grow_nil.
  - rewrite (bind_run _ _ _ _ _ (new_list_run l h)). rewrite (bind_run _ _ _ _ _ (IH _)). unfold ret. rewrite grow_grow.
    simpl. by rewrite app_length, Nat.add_1_r.
Qed.
Lemma mapC_copy_list is ls h : mapM (h_lists h !!.) is = Some ls ->
  mapC (fun i => l ← get_list i; new_list l) is h = (grow h [] ls [] [], Ok (seq (length (h_lists h)) (length ls))).
Proof.
  revert h ls. induction is as [|i is IH]; intros h ls; simpl.
  - intros [= <-]. by rewrite grow_nil.
  - destruct (h_lists h !! i) as [l|] eqn:Hi; simpl; [|done]. destruct (mapM _ is) as [ls'|] eqn:Hls; simpl; [|done]. intros [= <-].
    erewrite bind_run; [|erewrite bind_run; [apply new_list_run|]; unfold get_list, look; by rewrite Hi].
    erewrite bind_run; [|apply (IH _ ls')].
    + unfold ret. rewrite grow_grow. simpl. by rewrite app_length, Nat.add_1_r.
    + apply (mapM_lookup_prefix (h_lists h)); [by eexists|done].
Qed.
Definition fresh_lists (h : heap) (label : list (list lab)) : list nat := seq (length (h_lists h)) (length label).
Lemma read_fresh (l0 label : list (list lab)) : mapM ((l0 ++ label) !!.) (seq (length l0) (length label)) = Some label.
Proof.
  apply mapM_Some. apply Forall2_same_length_lookup_2; [by rewrite seq_length|].
  intros i j v Hj Hv. apply lookup_seq in Hj as [-> _]. rewrite lookup_app_r by lia.
  by replace (length l0 + i - length l0) with i by lia.
Qed.
Lemma copylabel_run h p y : read_larry h p = Some y ->
  copylabel p h = (grow h [] (llabel y) [fresh_lists h (llabel y)] [], Ok (length (h_outers h))).
Proof.
  intros (ob & is & Hob & Hx & Ho & Hl)%read_larry_Some. unfold copylabel.
  erewrite bind_run; [|unfold ld_label, look; by rewrite Hob]. erewrite bind_run; [|unfold get_outer, look; by rewrite Ho].
  erewrite bind_run; [|by apply mapC_copy_list]. rewrite new_outer_run, grow_grow. simpl. rewrite ?app_nil_r. unfold fresh_lists. reflexivity.
Qed.

(** The memory with one more larry that shares nothing. *)
Definition added (h : heap) (z : larry) : heap :=
  grow h [buf_of (lx z)] (llabel z) [fresh_lists h (llabel z)] [HObj (whole (length (h_bufs h)) (lx z)) (length (h_outers h))].
Lemma read_added h z : read_larry (added h z) (length (h_objs h)) = Some z.
Proof.
  apply read_larry_Some. exists (HObj (whole (length (h_bufs h)) (lx z)) (length (h_outers h))), (fresh_lists h (llabel z)).
  unfold added, grow. simpl. rewrite !lookup_app_r, !Nat.sub_diag by lia. split; [done|]. split; [|split; [done|]].
  - apply read_whole. simpl. by rewrite lookup_app_r, Nat.sub_diag by lia.
  - apply read_fresh.
Qed.
Lemma ext_added h z : ext h (added h z).
Proof. apply grow_ext. Qed.
Lemma h_new_run h z : h_new z h = (added h z, Ok (length (h_objs h))).
Proof.
  unfold h_new. erewrite bind_run; [|apply alloc_run]. erewrite bind_run; [|apply mapC_new_list].
  erewrite bind_run; [|apply new_outer_run]. rewrite new_obj_run, !grow_grow. simpl. by rewrite !app_nil_r.
Qed.
Lemma h_copy_run h p y : read_larry h p = Some y -> h_copy p h = (added h y, Ok (length (h_objs h))).
Proof.
  intros Hp. unfold h_copy. erewrite bind_run; [|by apply copylabel_run].
  pose proof Hp as (ob & is & Hob & Hx & Ho & Hl)%read_larry_Some.
  erewrite bind_run; [|unfold ld_x, look; simpl; rewrite app_nil_r; by rewrite Hob].
  erewrite bind_run; [|unfold load, look; by erewrite read_arr_prefix; [| |done]; [|apply grow_ext]].
  erewrite bind_run; [|apply alloc_run]. rewrite new_obj_run, !grow_grow. simpl. by rewrite !app_nil_r.
Qed.

(** * Larrys under construction *)

Definition lab_ok (h h1 : heap) (o : nat) (label : list (list lab)) : Prop :=
  length (h_outers h) <= o /\
  exists is, h_outers h1 !! o = Some is /\ mapM (h_lists h1 !!.) is = Some label /\ NoDup is.
Definition arr_ok (h h1 : heap) (a : harr) (x : nda) : Prop :=
  length (h_bufs h) <= a_buf a /\ read_arr h1 a = Some x /\ NoDup (data (a_pos a)).
(** [h1] is [h] with a larry [q] of its own added, which is [y]. *)
Definition working (h h1 : heap) (q : nat) (y : larry) : Prop :=
  ext h h1 /\ length (h_objs h) <= q /\ exists a o, h_objs h1 !! q = Some (HObj a o) /\
    lab_ok h h1 o (llabel y) /\ arr_ok h h1 a (lx y).

Lemma lab_ok_ext h h1 h2 o label : ext h1 h2 -> lab_ok h h1 o label -> lab_ok h h2 o label.
Proof.
  intros (_ & Hl & Ho & _) (Hn & is & His & Hm & Hd). split; [done|]. exists is.
  split; [by eapply prefix_lookup_old|]. split; [by eapply mapM_lookup_prefix|done].
Qed.
Lemma arr_ok_ext h h1 h2 a x : ext h1 h2 -> arr_ok h h1 a x -> arr_ok h h2 a x.
Proof. intros (Hb & _) (Hn & Hr & Hd). split; [done|]. split; [by eapply read_arr_prefix|done]. Qed.
Lemma working_ext h h1 h2 q y : ext h1 h2 -> working h h1 q y -> working h h2 q y.
Proof.
  intros He (Heh & Hq & a & o & Hob & Hl & Ha). split; [by eapply ext_trans|]. split; [done|]. exists a, o.
  split; [by eapply prefix_lookup_old; [apply He|]|]. split; [by eapply lab_ok_ext|by eapply arr_ok_ext].
Qed.
Lemma working_has h h1 q y : working h h1 q y -> ext h h1 /\ has h1 q y.
Proof.
  intros (He & Hq & a & o & Hob & (_ & is & His & Hm & Hd) & (_ & Hr & Hp)). split; [done|]. split.
  - apply read_larry_Some. by exists (HObj a o), is.
  - by exists (HObj a o), is.
Qed.
Lemma has_ext h h1 p y : ext h h1 -> has h p y -> has h1 p y.
Proof.
  intros He [Hr (ob & is & Hob & His & Ht)]. split; [by eapply read_larry_ext|].
  exists ob, is. split; [by eapply prefix_lookup_old; [apply He|]|]. split; [by eapply prefix_lookup_old; [apply He|]|done].
Qed.
Lemma lab_ok_fresh h h0 label : length (h_outers h) <= length (h_outers h0) ->
  lab_ok h (grow h0 [] label [fresh_lists h0 label] []) (length (h_outers h0)) label.
Proof.
  intros Hn. split; [done|]. exists (fresh_lists h0 label). simpl.
  rewrite lookup_app_r, Nat.sub_diag by lia. split; [done|]. split; [apply read_fresh|apply NoDup_seq].
Qed.
Lemma arr_ok_alloc h h0 x : length (h_bufs h) <= length (h_bufs h0) ->
  arr_ok h (grow h0 [buf_of x] [] [] []) (whole (length (h_bufs h0)) x) x.
Proof.
  intros Hn. split; [done|]. split; [|apply NoDup_seq]. apply read_whole. simpl.
  by rewrite lookup_app_r, Nat.sub_diag by lia.
Qed.
Lemma ext_le h h1 : ext h h1 -> length (h_bufs h) <= length (h_bufs h1) /\ length (h_lists h) <= length (h_lists h1) /\
  length (h_outers h) <= length (h_outers h1) /\ length (h_objs h) <= length (h_objs h1).
Proof. intros (? & ? & ? & ?). repeat split; by apply prefix_length. Qed.
Lemma working_obj h h1 a o x label : ext h h1 -> lab_ok h h1 o label -> arr_ok h h1 a x ->
  working h (grow h1 [] [] [] [HObj a o]) (length (h_objs h1)) (Larry x label).
Proof.
  intros He Hl Ha. split; [eapply ext_trans; [done|apply grow_ext]|]. split; [by apply ext_le|]. exists a, o. simpl.
  rewrite lookup_app_r, Nat.sub_diag by lia. split; [done|].
  split; [eapply lab_ok_ext; [apply grow_ext|done]|eapply arr_ok_ext; [apply grow_ext|done]].
Qed.
Lemma working_added h z : working h (added h z) (length (h_objs h)) z.
Proof.
  destruct z as [x label]. unfold added. simpl.
  pose proof (working_obj h (grow h [buf_of x] label [fresh_lists h label] []) (whole (length (h_bufs h)) x) (length (h_outers h)) x label) as H.
  rewrite grow_grow in H. simpl in H. rewrite !app_nil_r in H. apply H.
  - apply grow_ext.
  - split; [done|]. exists (fresh_lists h label). simpl. rewrite lookup_app_r, Nat.sub_diag by lia.
    split; [done|]. split; [apply read_fresh|apply NoDup_seq].
  - split; [done|]. split; [|apply NoDup_seq]. apply read_whole. simpl. by rewrite lookup_app_r, Nat.sub_diag by lia.
Qed.

(** Primitive steps. *)
Lemma copylabel_ok h h1 p y : ext h h1 -> read_larry h1 p = Some y ->
  exists h2 o, copylabel p h1 = (h2, Ok o) /\ ext h1 h2 /\ ext h h2 /\ lab_ok h h2 o (llabel y).
Proof.
  intros He Hp. eexists _, _. split; [by apply copylabel_run|]. split; [apply grow_ext|].
  split; [eapply ext_trans; [done|apply grow_ext]|]. by apply lab_ok_fresh, ext_le.
Qed.
Lemma alloc_ok h h1 x : ext h h1 ->
  exists h2 a, alloc x h1 = (h2, Ok a) /\ ext h1 h2 /\ ext h h2 /\ arr_ok h h2 a x.
Proof.
  intros He. eexists _, _. split; [by apply alloc_run|]. split; [apply grow_ext|].
  split; [eapply ext_trans; [done|apply grow_ext]|]. by apply arr_ok_alloc, ext_le.
Qed.
Lemma new_obj_ok h h1 a o x label : ext h h1 -> lab_ok h h1 o label -> arr_ok h h1 a x ->
  exists h2 q, new_obj a o h1 = (h2, Ok q) /\ working h h2 q (Larry x label).
Proof. intros He Hl Ha. eexists _, _. split; [apply new_obj_run|]. by apply working_obj. Qed.
Lemma h_copy_ok h h1 p y : ext h h1 -> read_larry h1 p = Some y ->
  exists h2 q, h_copy p h1 = (h2, Ok q) /\ ext h1 h2 /\ working h h2 q y.
Proof.
  intros He Hp. eexists _, _. split; [by apply h_copy_run|]. split; [apply ext_added|].
  destruct (working_added h1 y) as (He' & Hq & a & o & Hob & (Hl & Hl') & (Ha & Ha')).
  pose proof (ext_le _ _ He). split; [by eapply ext_trans|]. split; [lia|]. exists a, o.
  split; [done|]. split; [split; [lia|done]|split; [lia|done]].
Qed.
Lemma h_new_ok h h1 z : ext h h1 -> exists h2 q, h_new z h1 = (h2, Ok q) /\ ext h1 h2 /\ working h h2 q z.
Proof.
  intros He. eexists _, _. split; [by apply h_new_run|]. split; [apply ext_added|].
  destruct (working_added h1 z) as (He' & Hq & a & o & Hob & (Hl & Hl') & (Ha & Ha')).
  pose proof (ext_le _ _ He). split; [by eapply ext_trans|]. split; [lia|]. exists a, o.
  split; [done|]. split; [split; [lia|done]|split; [lia|done]].
Qed.
Lemma value_ok h p y : read_larry h p = Some y -> value p h = (h, Ok y).
Proof. intros H. unfold value, look. by rewrite H. Qed.

(** Changing the labels of a larry under construction. *)
Definition same_rest (h1 h2 : heap) : Prop := h_bufs h2 = h_bufs h1 /\ h_objs h2 = h_objs h1.
Lemma set_outer_ok h h1 o label is' label' : ext h h1 -> lab_ok h h1 o label ->
  mapM (h_lists h1 !!.) is' = Some label' -> NoDup is' ->
  exists h2, set_outer o is' h1 = (h2, Ok ()) /\ ext h h2 /\ lab_ok h h2 o label' /\ same_rest h1 h2.
Proof.
  intros (Hb & Hl & Ho & Hp) (Hn & is & His & Hm & Hd) Hm' Hd'. unfold set_outer. rewrite His. eexists. split; [done|].
  split; [split; [done|split; [done|split; [by apply prefix_insert_new|done]]]|]. split; [|done]. split; [done|].
  exists is'. simpl. rewrite list_lookup_insert by (by eapply lookup_lt_Some). done.
Qed.
Lemma same_rest_arr h h1 h2 a x : same_rest h1 h2 -> arr_ok h h1 a x -> arr_ok h h2 a x.
Proof. intros [Hb _] (Hn & Hr & Hd). split; [done|]. split; [|done]. revert Hr. unfold read_arr. by rewrite Hb. Qed.
Lemma same_rest_ext h1 h2 h3 : h_bufs h2 = h_bufs h1 -> h_objs h2 = h_objs h1 -> same_rest h2 h3 -> same_rest h1 h3.
Proof. intros Hb Ho [Hb' Ho']. split; congruence. Qed.

Lemma mapM_insert_new (ls : list (list lab)) (is : list nat) (label : list (list lab)) ax l : mapM (ls !!.) is = Some label -> NoDup is ->
  mapM ((ls ++ [l]) !!.) (<[ax := length ls]> is) = Some (<[ax := l]> label) /\ NoDup (<[ax := length ls]> is).
Proof.
  rewrite !mapM_Some. intros Hm Hd. split.
  - apply Forall2_insert; [|by rewrite lookup_app_r, Nat.sub_diag by lia].
    eapply Forall2_impl; [exact Hm|]. intros i v Hi. simpl in *. by apply lookup_app_l_Some.
  - assert (Hlt : Forall (fun i => i < length ls) is).
    { apply Forall_lookup. intros k i Hk. destruct (Forall2_lookup_l _ _ _ _ _ Hm Hk) as (v & _ & Hv). by eapply lookup_lt_Some. }
    clear Hm. revert ax. induction Hd as [|i is Hi Hd IH]; intros ax; [constructor|]. apply Forall_cons in Hlt as [Hi' Hlt].
    destruct ax; simpl; constructor.
    + intros Hin. rewrite Forall_forall in Hlt. apply Hlt in Hin. lia.
    + done.
    + intros Hin. apply elem_of_list_lookup in Hin as [k Hk]. destruct (decide (k = ax)) as [->|Hne].
      * assert (ax < length is) by (apply lookup_lt_Some in Hk; by rewrite insert_length in Hk).
        rewrite list_lookup_insert in Hk by done. injection Hk as <-. lia.
      * rewrite list_lookup_insert_ne in Hk by done. apply Hi. by apply elem_of_list_lookup_2 in Hk.
    + by apply IH.
Qed.
Lemma l_relabel h h1 o label ax l : ext h h1 -> lab_ok h h1 o label ->
  exists h2 j h3, new_list l h1 = (h2, Ok j) /\ ext h1 h2 /\ set_axis o ax j h2 = (h3, Ok ()) /\ ext h h3 /\
    lab_ok h h3 o (<[ax := l]> label) /\ same_rest h1 h3.
Proof.
  intros He Hl. pose proof Hl as (Hn & is & His & Hm & Hd). destruct (mapM_insert_new _ _ _ ax l Hm Hd) as [Hm' Hd'].
  set (h2 := grow h1 [] [l] [] []). assert (E12 : ext h1 h2) by apply grow_ext.
  destruct (set_outer_ok h h2 o label (<[ax := length (h_lists h1)]> is) (<[ax := l]> label)) as (h3 & Hs & He3 & Hl3 & Hr3).
  - by eapply ext_trans.
  - by eapply lab_ok_ext.
  - done.
  - done.
  - exists h2, (length (h_lists h1)), h3. split; [apply new_list_run|]. split; [done|]. split.
    + unfold set_axis. erewrite bind_run; [exact Hs|]. unfold get_outer, look. simpl. by rewrite app_nil_r, His.
    + split; [done|]. split; [done|]. eapply same_rest_ext; [| |done]; simpl; by rewrite app_nil_r.
Qed.
Lemma working_rest h h1 h2 q a o y label : length (h_objs h) <= q -> h_objs h1 !! q = Some (HObj a o) ->
  arr_ok h h1 a (lx y) -> ext h h2 -> same_rest h1 h2 -> lab_ok h h2 o label ->
  working h h2 q (Larry (lx y) label).
Proof.
  intros Hq Hob Ha He Hr Hl. split; [done|]. split; [done|]. exists a, o. destruct Hr as [Hb Ho].
  split; [by rewrite Ho|]. split; [done|]. by eapply same_rest_arr; [split|].
Qed.

(** What [ld_label], [get_outer] and [get_list] return. *)
Definition labels_at (h h1 : heap) (q o : nat) (is : list nat) : Prop :=
  h_outers h1 !! o = Some is /\ exists a, h_objs h1 !! q = Some (HObj a o).
Lemma w_label h h1 q y : working h h1 q y ->
  exists o is, ld_label q h1 = (h1, Ok o) /\ get_outer o h1 = (h1, Ok is) /\ labels_at h h1 q o is /\
    length is = length (llabel y) /\ mapM (h_lists h1 !!.) is = Some (llabel y) /\ NoDup is.
Proof.
  intros (He & Hq & a & o & Hob & (Hn & is & His & Hm & Hd) & Ha). exists o, is.
  unfold ld_label, get_outer, look. rewrite Hob, His. simpl. split; [done|]. split; [done|].
  split; [split; [done|by exists a]|]. split; [|done]. apply mapM_Some in Hm; by apply Forall2_length in Hm.
Qed.
Lemma get_list_at h is (label : list (list lab)) ax : mapM (h_lists h !!.) is = Some label ->
  match label !! ax with
  | Some l => exists i, is !! ax = Some i /\ get_list i h = (h, Ok l)
  | None => is !! ax = None
  end.
Proof.
  intros Hm. apply mapM_Some in Hm. destruct (label !! ax) as [l|] eqn:Hl.
  - destruct (Forall2_lookup_r _ _ _ _ _ Hm Hl) as (i & Hi & Hv). exists i. split; [done|].
    unfold get_list, look. by rewrite Hv.
  - apply lookup_ge_None. apply lookup_ge_None in Hl. by rewrite (Forall2_length _ _ _ Hm).
Qed.
Lemma w_relabel h h1 q y o is ax l : working h h1 q y -> labels_at h h1 q o is ->
  exists h2 j h3, new_list l h1 = (h2, Ok j) /\ set_axis o ax j h2 = (h3, Ok ()) /\
    working h h3 q (Larry (lx y) (<[ax := l]> (llabel y))).
Proof.
  intros (He & Hq & a & o' & Hob & Hl & Ha) (His & a' & Hob'). rewrite Hob in Hob'. injection Hob' as <- <-.
  destruct (l_relabel h h1 o' (llabel y) ax l He Hl) as (h2 & j & h3 & Hn & _ & Hs & He3 & Hl3 & Hr3).
  exists h2, j, h3. split; [done|]. split; [done|]. by eapply working_rest.
Qed.

(** Changing the array. *)
Lemma set_obj_ok h h1 q y a o a' o' x' label' (f : hobj -> hobj) : working h h1 q y -> h_objs h1 !! q = Some (HObj a o) ->
  f (HObj a o) = HObj a' o' -> arr_ok h h1 a' x' -> lab_ok h h1 o' label' ->
  exists h2, set_obj q f h1 = (h2, Ok ()) /\ h_objs h2 !! q = Some (HObj a' o') /\ working h h2 q (Larry x' label').
Proof.
  intros (He & Hq & _) Hob Hf Ha Hl. unfold set_obj. rewrite Hob, Hf. eexists. split; [done|].
  split; [simpl; by rewrite list_lookup_insert by (by eapply lookup_lt_Some)|].
  destruct He as (Hb & Hli & Ho & Hp). split; [split; [done|split; [done|split; [done|by apply prefix_insert_new]]]|].
  split; [done|]. exists a', o'. simpl. rewrite list_lookup_insert by (by eapply lookup_lt_Some). by split.
Qed.
Lemma w_set_x h h1 q y a x : working h h1 q y -> arr_ok h h1 a x ->
  exists h2, set_x q a h1 = (h2, Ok ()) /\ (exists o, h_objs h2 !! q = Some (HObj a o)) /\ working h h2 q (Larry x (llabel y)).
Proof.
  intros Hw Ha. pose proof Hw as (_ & _ & a0 & o & Hob & Hl & _). unfold set_x.
  destruct (set_obj_ok h h1 q y a0 o a o x (llabel y) (fun ob => HObj a (o_label ob)) Hw Hob eq_refl Ha Hl) as (h2 & Hs & Ho & Hw2).
  exists h2. split; [done|]. split; [by exists o|done].
Qed.
Lemma w_set_label h h1 q y o label : working h h1 q y -> lab_ok h h1 o label ->
  exists h2, set_label q o h1 = (h2, Ok ()) /\ working h h2 q (Larry (lx y) label).
Proof.
  intros Hw Hl. pose proof Hw as (_ & _ & a0 & o' & Hob & _ & Ha). unfold set_label.
  destruct (set_obj_ok h h1 q y a0 o' a0 o (lx y) label (fun ob => HObj (o_x ob) o) Hw Hob eq_refl Ha Hl) as (h2 & Hs & _ & Hw2). by exists h2.
Qed.
Lemma w_ld_x h h1 q y : working h h1 q y -> exists a, ld_x q h1 = (h1, Ok a) /\ arr_ok h h1 a (lx y) /\ load a h1 = (h1, Ok (lx y)).
Proof.
  intros (_ & _ & a & o & Hob & _ & Ha). exists a. unfold ld_x, load, look. rewrite Hob. simpl.
  split; [done|]. split; [done|]. destruct Ha as (_ & Hr & _). by rewrite Hr.
Qed.
(** [f] and [g] move elements in the same way. *)
Definition moves (f : arr nat -> res (arr nat)) (g : arr val -> res (arr val)) : Prop :=
  (forall d a b, arel (in_buf d) a b -> rrel (arel (in_buf d)) (f a) (g b)) /\
  (forall a q, f a = Ok q -> NoDup (data a) -> NoDup (data q)).
Lemma w_view h h1 q y a f g : working h h1 q y -> arr_ok h h1 a (lx y) -> moves f g ->
  match g (larr y) with
  | Ok b => exists c h2, view f a h1 = (h1, Ok c) /\ set_x q c h1 = (h2, Ok ()) /\
              working h h2 q (Larry (Nda (ldtype y) b) (llabel y))
  | Err e => view f a h1 = (h1, Err e)
  end.
Proof.
  intros Hw (Hn & Hr & Hd) [Hfg Hnd]. pose proof (view_run f g a h1 (lx y) (fun d b => Hfg d _ b) Hr) as Hv.
  unfold larr. destruct (g (nd_arr (lx y))) as [b|e]; [|done]. destruct Hv as (c & Hv & Hc).
  destruct (w_set_x h h1 q y (HArr (a_buf a) c) (Nda (ldtype y) b)) as (h2 & Hs & _ & Hw2); [done| |].
  - split; [done|]. split; [done|]. simpl. apply (Hnd (a_pos a)); [|done].
    unfold view, mbind, cmd_bind, lift in Hv. destruct (f (a_pos a)); [by injection Hv as ->|discriminate Hv].
  - by exists (HArr (a_buf a) c), h2.
Qed.
Lemma w_assign h h1 q y x : working h h1 q y -> exists h2 b h3, alloc x h1 = (h2, Ok b) /\ ext h1 h2 /\ set_x q b h2 = (h3, Ok ()) /\
  (exists o, h_objs h3 !! q = Some (HObj b o)) /\ working h h3 q (Larry x (llabel y)).
Proof.
  intros Hw. destruct (alloc_ok h h1 x) as (h2 & b & Ha & He & _ & Hb); [apply Hw|].
  destruct (w_set_x h h2 q y b x) as (h3 & Hs & Ho & Hw3); [by eapply working_ext|done|]. by exists h2, b, h3.
Qed.

(** Writing to the array. *)
Lemma put_at_length ps vs d : length (put_at ps vs d) = length d.
Proof.
  unfold put_at. revert d. generalize (zip ps vs). intros l. induction l as [|pv l IH]; intros d; simpl; [done|].
  by rewrite IH, insert_length.
Qed.
Lemma put_at_read ps vs d : NoDup ps -> length ps = length vs -> Forall (fun i => i < length d) ps ->
  Forall2 (in_buf (put_at ps vs d)) ps vs.
Proof.
  intros Hd Hl Hlt. apply Forall2_same_length_lookup_2; [done|]. intros k i v Hi Hv. unfold in_buf, put_at.
  revert ps vs d k Hd Hl Hlt Hi Hv. induction ps as [|p ps IH]; intros vs d k Hd Hl Hlt Hi Hv; [done|].
  destruct vs as [|w vs]; [done|]. apply NoDup_cons in Hd as [Hp Hd]. apply Forall_cons in Hlt as [Hp' Hlt]. simpl.
  destruct k; simpl in *.
  - injection Hi as <-. injection Hv as <-. fold (put_at ps vs (<[p := w]> d)). rewrite put_at_ne by done. by rewrite list_lookup_insert.
  - apply (IH _ _ k); try done; [lia|]. by rewrite insert_length.
Qed.
Lemma write_read h a x y : read_arr h a = Some y -> NoDup (data (a_pos a)) -> nd_dtype x = nd_dtype y ->
  nd_shape x = nd_shape y -> length (data (nd_arr x)) = length (data (nd_arr y)) ->
  exists d h2, write a x h = (h2, Ok ()) /\ h2 = Heap (<[a_buf a := (nd_dtype y, d)]> (h_bufs h)) (h_lists h) (h_outers h) (h_objs h) /\
    read_arr h2 a = Some x.
Proof.
  intros (d & Hb & Hs & Hr)%read_arr_rel Hd Ht Hs' Hl. unfold write. rewrite Hb.
  rewrite decide_True by (split; [done|by rewrite Hl, (Forall2_length _ _ _ Hr)]).
  eexists _, _. split; [done|]. split; [done|]. apply read_arr_rel. simpl.
  rewrite list_lookup_insert by (by eapply lookup_lt_Some). eexists. split; [by rewrite Ht|]. split; [rewrite Hs; symmetry; exact Hs'|].
  apply put_at_read; [done|by rewrite Hl, (Forall2_length _ _ _ Hr)|].
  apply Forall_lookup. intros k i Hi. destruct (Forall2_lookup_l _ _ _ _ _ Hr Hi) as (v & _ & Hv). by eapply lookup_lt_Some.
Qed.
Lemma w_write h h1 q y a o x : working h h1 q y -> h_objs h1 !! q = Some (HObj a o) -> nd_dtype x = ldtype y ->
  nd_shape x = lshape y -> length (data (nd_arr x)) = length (data (larr y)) ->
  exists h2, write a x h1 = (h2, Ok ()) /\ working h h2 q (Larry x (llabel y)).
Proof.
  intros (He & Hq & a' & o' & Hob & Hl & (Hn & Hr & Hd)) Hob' Ht Hs Hlen. rewrite Hob in Hob'. injection Hob' as -> ->.
  destruct (write_read h1 a x (lx y) Hr Hd Ht Hs Hlen) as (d & h2 & Hw & -> & Hr2). eexists. split; [exact Hw|].
  destruct He as (Hb & Hli & Ho & Hp). split; [split; [by apply prefix_insert_new|done]|]. split; [done|]. exists a, o.
  split; [done|]. split; [done|]. by split.
Qed.
Lemma w_write_x h h1 q y x : working h h1 q y -> nd_dtype x = ldtype y ->
  nd_shape x = lshape y -> length (data (nd_arr x)) = length (data (larr y)) ->
  exists a h2, ld_x q h1 = (h1, Ok a) /\ load a h1 = (h1, Ok (lx y)) /\ write a x h1 = (h2, Ok ()) /\ working h h2 q (Larry x (llabel y)).
Proof.
  intros Hw Ht Hs Hl. pose proof Hw as (_ & _ & a & o & Hob & _ & (_ & Hr & _)).
  destruct (w_write h h1 q y a o x Hw Hob Ht Hs Hl) as (h2 & H2 & Hw2). exists a, h2.
  split; [unfold ld_x, look; by rewrite Hob|]. split; [unfold load, look; by rewrite Hr|done].
Qed.

(** * The calls *)

(** [m] returns a larry of its own with the value [r], or raises as [r] does. *)
Definition gives (h : heap) (m : cmd nat) (r : res larry) : Prop :=
  match r with
  | Ok z => exists h' q, m h = (h', Ok q) /\ ext h h' /\ has h' q z
  | Err e => exists h', m h = (h', Err e) /\ ext h h'
  end.
Definition gives_out (h : heap) (m : cmd (list hval)) (r : res (list larry)) : Prop :=
  match r with
  | Ok zs => exists h' rs, m h = (h', Ok rs) /\ ext h h' /\ Forall2 (has h') (larrys_of rs) zs
  | Err e => exists h', m h = (h', Err e) /\ ext h h'
  end.
Lemma working_gives h h1 q z m : m h = (h1, Ok q) -> working h h1 q z -> gives h m (Ok z).
Proof. intros Hm Hw. apply working_has in Hw as [He Hh]. by exists h1, q. Qed.
Lemma gives_err h m e : m h = (h, Err e) -> gives h m (Err e).
Proof. intros Hm. exists h. split; [done|]. apply ext_refl. Qed.
Lemma gives_value h p y f r : read_larry h p = Some y -> gives h (f y) r -> gives h (y ← value p; f y) r.
Proof.
  intros Hp. unfold gives. destruct r as [z|e].
  - intros (h' & q & Hm & H). exists h', q. split; [|done]. erewrite bind_run; [done|by apply value_ok].
  - intros (h' & Hm & H). exists h'. split; [|done]. erewrite bind_run; [done|by apply value_ok].
Qed.
Lemma gives_lift {A} h (r : res A) f (g : A -> res larry) :
  (forall a, r = Ok a -> gives h (f a) (g a)) -> gives h (a ← lift r; f a) (a ← r; g a).
Proof.
  intros H. destruct r as [a|e]; simpl.
  - by apply H.
  - by apply gives_err.
Qed.
Lemma gives_lift_ok {A} h (r : res A) a f s : r = Ok a -> gives h (f a) s -> gives h (x ← lift r; f x) s.
Proof. by intros ->. Qed.

Lemma gives_h_map h p y f : read_larry h p = Some y -> (forall z, f y = Ok z -> llabel z = llabel y) ->
  gives h (h_map f p) (f y).
Proof.
  intros Hp Hf. apply (gives_value _ _ y); [done|]. destruct (f y) as [z|e]; [|by apply gives_err].
  destruct (alloc_ok h h (lx z) (ext_refl h)) as (h1 & a & Ha & _ & He1 & Hx).
  destruct (copylabel_ok h h1 p y) as (h2 & o & Hc & He12 & He2 & Hl); [done|by eapply read_larry_ext|].
  destruct (new_obj_ok h h2 a o (lx z) (llabel y)) as (h3 & q & Hn & Hw); [done|done|by eapply arr_ok_ext; [exact He12|]|].
  eapply working_gives.
  - erewrite bind_run by done. erewrite bind_run by exact Ha. erewrite bind_run by exact Hc. exact Hn.
  - rewrite <-(Hf z) in Hw by done. by destruct z.
Qed.
Lemma gives_h_copy h p y : read_larry h p = Some y -> gives h (h_copy p) (Ok y).
Proof. intros Hp. destruct (h_copy_ok h h p y) as (h1 & q & Hc & _ & Hw); [apply ext_refl|done|]. by eapply working_gives. Qed.
Lemma gives_h_new h z : gives h (h_new z) (Ok z).
Proof. destruct (h_new_ok h h z) as (h1 & q & Hc & _ & Hw); [apply ext_refl|]. by eapply working_gives. Qed.
Lemma gives_h_make h r : gives h (h_make r) r.
Proof. unfold h_make. destruct r as [z|e]; [apply gives_h_new|by apply gives_err]. Qed.
Lemma gives_h_fresh1 h p y f : read_larry h p = Some y -> gives h (h_fresh1 f p) (f y).
Proof. intros Hp. apply (gives_value _ _ y); [done|]. apply gives_h_make. Qed.
(** Results of the shape and dtype of the argument. *)
Definition like (y z : larry) : Prop :=
  ldtype z = ldtype y /\ lshape z = lshape y /\ length (data (larr z)) = length (data (larr y)) /\ llabel z = llabel y.
Lemma gives_h_copy_write h p y f : read_larry h p = Some y -> (forall z, f y = Ok z -> like y z) ->
  gives h (h_copy_write f p) (f y).
Proof.
  intros Hp Hf. apply (gives_value _ _ y); [done|]. destruct (f y) as [z|e]; [|by apply gives_err].
  destruct (Hf z eq_refl) as (Ht & Hs & Hlen & Hlab).
  destruct (h_copy_ok h h p y (ext_refl h) Hp) as (h1 & q & Hc & _ & Hw).
  destruct (w_write_x h h1 q y (lx z) Hw Ht Hs Hlen) as (a & h2 & Ha & _ & Hwr & Hw2).
  eapply working_gives.
  - erewrite bind_run by done. erewrite bind_run by exact Hc. erewrite bind_run by exact Ha. erewrite bind_run by exact Hwr. reflexivity.
  - rewrite <-Hlab in Hw2. by destruct z.
Qed.
Lemma gives_h_copy_assign h p y f : read_larry h p = Some y -> (forall z, f y = Ok z -> llabel z = llabel y) ->
  gives h (h_copy_assign f p) (f y).
Proof.
  intros Hp Hf. apply (gives_value _ _ y); [done|]. destruct (f y) as [z|e]; [|by apply gives_err].
  destruct (h_copy_ok h h p y (ext_refl h) Hp) as (h1 & q & Hc & _ & Hw).
  destruct (w_assign h h1 q y (lx z) Hw) as (h2 & b & h3 & Ha & _ & Hs & _ & Hw3).
  eapply working_gives.
  - erewrite bind_run by done. erewrite bind_run by exact Hc. erewrite bind_run by exact Ha. erewrite bind_run by exact Hs. reflexivity.
  - rewrite <-(Hf z) in Hw3 by done. by destruct z.
Qed.
