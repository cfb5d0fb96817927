(** The calls that copy a larry and change the copy. *)
From Verif Require Export RefineMoves.

Definition wgives (h h1 : heap) (q : nat) (m : cmd unit) (r : res larry) : Prop :=
  match r with
  | Ok z => exists h2, m h1 = (h2, Ok ()) /\ working h h2 q z
  | Err e => exists h2, m h1 = (h2, Err e) /\ ext h h2
  end.
Lemma wgives_err h h1 q y m e : working h h1 q y -> m h1 = (h1, Err e) -> wgives h h1 q m (Err e).
Proof. intros Hw Hm. exists h1. split; [done|]. apply Hw. Qed.
Lemma w_fold {X} h q (f : X -> cmd unit) (g : larry -> X -> res larry) l h1 y (u : unit) :
  (forall h1 y x, working h h1 q y -> wgives h h1 q (f x) (g y x)) ->
  working h h1 q y -> wgives h h1 q (foldC (fun _ x => f x) u l) (foldM g y l).
Proof.
  intros Hfg. revert h1 y u. induction l as [|x l IH]; intros h1 y u Hw; simpl.
  - exists h1. by destruct u.
  - specialize (Hfg h1 y x Hw) as Hx. destruct (g y x) as [z|e].
    + destruct Hx as (h2 & Hx & Hw2). specialize (IH h2 z () Hw2). destruct (foldM g z l) as [w|e]; destruct IH as (h3 & H3 & Hw3);
        exists h3; (split; [|done]); by rewrite (bind_run _ _ _ _ _ Hx).
    + destruct Hx as (h2 & Hx & Hw2). exists h2. split; [|done]. by rewrite (bind_fail _ _ _ _ _ Hx).
Qed.
(** A copy, changed. *)
Lemma gives_copied h p y (m : nat -> cmd unit) r : read_larry h p = Some y ->
  (forall h1 q, working h h1 q y -> wgives h h1 q (m q) r) ->
  gives h (q ← h_copy p; _ ← m q; ret q) r.
Proof.
  intros Hp Hm. destruct (h_copy_ok h h p y (ext_refl h) Hp) as (h1 & q & Hc & _ & Hw). specialize (Hm h1 q Hw).
  destruct r as [z|e]; destruct Hm as (h2 & Hm & Hw2).
  - eapply working_gives; [|done]. erewrite bind_run by exact Hc. by erewrite bind_run by exact Hm.
  - exists h2. split; [|done]. erewrite bind_run by exact Hc. by erewrite bind_fail by exact Hm.
Qed.
Lemma gives_eq h m m' r : (m h = m' h) -> gives h m' r -> gives h m r.
Proof. intros H. unfold gives. by rewrite H. Qed.
Lemma bind_assoc {A B C} (m : cmd A) (f : A -> cmd B) (g : B -> cmd C) h :
  (b ← (a ← m; f a); g b) h = (a ← m; b ← f a; g b) h.
Proof. unfold mbind, cmd_bind. by destruct (m h) as [h' [a|e]]. Qed.

Lemma lift_some {A} e (o : option A) a h : o = Some a -> lift (of_opt e o) h = (h, Ok a).
Proof. by intros ->. Qed.
Lemma lift_none {A} e (o : option A) h : o = None -> lift (of_opt e o) h = (h, Err e).
Proof. by intros ->. Qed.
Lemma lift_is {A} (r s : res A) h : r = s -> lift r h = (h, s).
Proof. by intros ->. Qed.
(** Running a program step by step with the equations at hand. *)
Ltac known_step := first [eassumption | apply lift_some; eassumption | apply lift_none; eassumption | apply lift_is; eassumption | reflexivity].
Ltac runs := repeat (erewrite bind_run by known_step).
Ltac fails := runs; erewrite bind_fail by known_step; try reflexivity.

(** * flipaxis, maplabel *)

Lemma w_axis h h1 q y axis : working h h1 q y -> exists o is, ld_label q h1 = (h1, Ok o) /\ get_outer o h1 = (h1, Ok is) /\ labels_at h h1 q o is /\
  py_axis y axis = of_opt IndexError (py_index (length is) axis) /\
  forall ax, py_index (length is) axis = Some ax -> exists l i, axis_label y ax = Ok l /\ is !! ax = Some i /\ get_list i h1 = (h1, Ok l).
Proof.
  intros Hw. destruct (w_label h h1 q y Hw) as (o & is & Ho & His & Hat & Hlen & Hm & Hd). exists o, is.
  do 3 (split; [done|]). split; [unfold py_axis; by rewrite Hlen|]. intros ax Hax. apply py_index_lt in Hax as Hlt.
  pose proof (get_list_at h1 is (llabel y) ax Hm) as Hg. unfold axis_label.
  destruct (llabel y !! ax) as [l|] eqn:Hl; [|apply lookup_ge_None in Hg; lia]. destruct Hg as (i & Hi & Hg). by exists l, i.
Qed.
Lemma w_flip_at h h1 q y axis : working h h1 q y -> wgives h h1 q (h_flip_at q axis) (flip_one y axis).
Proof.
  intros Hw. unfold h_flip_at, flip_one. destruct (w_axis h h1 q y axis Hw) as (o & is & Ho & His & Hat & -> & Hax').
  destruct (py_index (length is) axis) as [ax|] eqn:Hax; cbn [of_opt mbind res_bind].
  2:{ eapply wgives_err; [done|]. by fails. }
  destruct (Hax' ax eq_refl) as (l & i & Hl & Hi & Hg). rewrite Hl. cbn [mbind res_bind].
  destruct (py_slice flip_slice l) as [l'|e] eqn:Hs; cbn [mbind res_bind].
  2:{ eapply wgives_err; [done|]. by fails. }
  destruct (w_relabel h h1 q y o is ax l' Hw Hat) as (h2 & j & h3 & Hn & Hsa & Hw3).
  destruct (w_ld_x h h3 q _ Hw3) as (a & Ha & Hao & _).
  pose proof (w_view h h3 q _ a _ _ Hw3 Hao (moves_slice_axis flip_slice ax)) as Hv.
  change (larr (Larry (lx y) (<[ax := l']> (llabel y)))) with (larr y) in Hv.
  destruct (slice_axis (larr y) flip_slice ax) as [b|e]; cbn [mbind res_bind].
  - destruct Hv as (c & h4 & Hv & Hsx & Hw4). exists h4. split; [|done]. by runs.
  - exists h3. split; [|apply Hw3]. by fails.
Qed.
Lemma gives_h_flipaxis h p y axis : read_larry h p = Some y -> gives h (h_flipaxis p axis true) (flipaxis y axis).
Proof.
  intros Hp. eapply gives_eq; [|apply (gives_copied h p y (fun q => y ← value q; foldC (fun _ a => h_flip_at q a) () (axes_of y axis))); [done|]].
  - destruct (h_copy_ok h h p y (ext_refl h) Hp) as (h1 & q & Hc & _). unfold h_flipaxis.
    erewrite !(bind_run (h_copy p)) by eassumption. by rewrite bind_assoc.
  - intros h1 q Hw. apply working_has in Hw as Hh. destruct Hh as [_ [Hr _]]. apply value_ok in Hr.
    pose proof (w_fold h q (h_flip_at q) flip_one (axes_of y axis) h1 y () (fun h1 y a => w_flip_at h h1 q y a) Hw) as Hf.
    fold (flipaxis y axis) in Hf. unfold wgives in *. destruct (flipaxis y axis); destruct Hf as (h2 & Hf & Hw2); exists h2;
      (split; [|done]); by runs.
Qed.
(** [maplabel] axis by axis. *)
Definition maplabel_one (func : lab -> lab) (y : larry) (axis : Z) : res larry :=
  ax ← py_axis y axis; l ← axis_label y ax; Ok (Larry (lx y) (<[ax := map_axis func l]> (llabel y))).
Lemma maplabel_axes func y n : forall k label, k + n = length label ->
  foldM (maplabel_one func) (Larry (lx y) ((map_axis func <$> take k label) ++ drop k label)) (Z.of_nat <$> seq k n) =
  Ok (Larry (lx y) (map_axis func <$> label)).
Proof.
  induction n as [|n IH]; intros k label Hk; simpl.
  - rewrite firstn_all2, drop_ge, app_nil_r by lia. done.
  - destruct (lookup_lt_is_Some_2 label k) as [l Hl]; [lia|].
    unfold maplabel_one at 1, py_axis, axis_label. simpl. rewrite py_index_nat.
    2:{ rewrite app_length, fmap_length, take_length, drop_length. lia. }
    simpl. rewrite lookup_app_r by (rewrite fmap_length, take_length; lia). rewrite fmap_length, take_length, lookup_drop.
    replace (k + (k - k `min` length label)) with k by lia. rewrite Hl. simpl.
    rewrite <-(IH (S k) label) by lia. f_equal. f_equal. apply list_eq. intros i.
    rewrite (take_S_r _ _ _ Hl), fmap_app, <-(app_assoc _ _ (drop (S k) label)). rewrite (drop_S _ _ _ Hl) at 1.
    rewrite insert_app_r_alt by (rewrite fmap_length, take_length; lia). rewrite fmap_length, take_length.
    replace (k - k `min` length label) with 0 by lia. done.
Qed.
Lemma maplabel_fold y func axis : length (llabel y) = lndim y -> foldM (maplabel_one func) y (axes_of y axis) = maplabel y func axis.
Proof.
  intros Hl. destruct axis as [a|]; simpl.
  - unfold maplabel_one. destruct (py_axis y a) as [ax|]; simpl; [|done]. by destruct (axis_label y ax).
  - pose proof (maplabel_axes func y (lndim y) 0 (llabel y) (eq_sym Hl)) as H. simpl in H. rewrite <-H. by destruct y.
Qed.
Lemma w_maplabel_at h h1 q y func axis : working h h1 q y -> wgives h h1 q (h_maplabel_at q func axis) (maplabel_one func y axis).
Proof.
  intros Hw. unfold h_maplabel_at, maplabel_one. destruct (w_axis h h1 q y axis Hw) as (o & is & Ho & His & Hat & -> & Hax').
  destruct (py_index (length is) axis) as [ax|] eqn:Hax; cbn [of_opt mbind res_bind].
  2:{ eapply wgives_err; [done|]. by fails. }
  destruct (Hax' ax eq_refl) as (l & i & Hl & Hi & Hg). rewrite Hl. cbn [mbind res_bind].
  destruct (w_relabel h h1 q y o is ax (map_axis func l) Hw Hat) as (h2 & j & h3 & Hn & Hsa & Hw3).
  exists h3. split; [|done]. by runs.
Qed.
Lemma gives_h_maplabel h p y func axis : read_larry h p = Some y -> length (llabel y) = lndim y ->
  gives h (h_maplabel p func axis true) (maplabel y func axis).
Proof.
  intros Hp Hl. rewrite <-maplabel_fold by done.
  eapply gives_eq; [|apply (gives_copied h p y (fun q => y ← value q; foldC (fun _ a => h_maplabel_at q func a) () (axes_of y axis))); [done|]].
  - destruct (h_copy_ok h h p y (ext_refl h) Hp) as (h1 & q & Hc & _). unfold h_maplabel.
    erewrite !(bind_run (h_copy p)) by eassumption. by rewrite bind_assoc.
  - intros h1 q Hw. apply working_has in Hw as Hh. destruct Hh as [_ [Hr _]]. apply value_ok in Hr.
    pose proof (w_fold h q (h_maplabel_at q func) (maplabel_one func) (axes_of y axis) h1 y () (fun h1 y a => w_maplabel_at h h1 q y func a) Hw) as Hf.
    unfold wgives in *. destruct (foldM _ _ _); destruct Hf as (h2 & Hf & Hw2); exists h2; (split; [|done]); by runs.
Qed.

(** * lag, T, swapaxes, insertaxis *)

Definition lag_by (y : larry) (axis : Z) (sl sx : slice) : res larry :=
  ax ← py_axis y axis; l ← axis_label y ax; l' ← py_slice sl l; b ← slice_axis (larr y) sx ax;
  Ok (Larry (Nda (ldtype y) b) (<[ax := l']> (llabel y))).
Lemma gives_h_lag_by h p y axis sl sx : read_larry h p = Some y -> gives h (h_lag_by p axis sl sx) (lag_by y axis sl sx).
Proof.
  intros Hp. destruct (h_copy_ok h h p y (ext_refl h) Hp) as (h1 & q & Hc & _ & Hw). unfold h_lag_by, lag_by.
  destruct (w_axis h h1 q y axis Hw) as (o & is & Ho & His & Hat & -> & Hax').
  destruct (py_index (length is) axis) as [ax|] eqn:Hax; cbn [of_opt mbind res_bind].
  2:{ exists h1. split; [by fails|apply Hw]. }
  destruct (Hax' ax eq_refl) as (l & i & Hl & Hi & Hg). rewrite Hl. cbn [mbind res_bind].
  destruct (py_slice sl l) as [l'|e] eqn:Hs; cbn [mbind res_bind].
  2:{ exists h1. split; [by fails|apply Hw]. }
  destruct (w_relabel h h1 q y o is ax l' Hw Hat) as (h2 & j & h3 & Hn & Hsa & Hw3).
  destruct (w_ld_x h h3 q _ Hw3) as (a & Ha & Hao & _).
  pose proof (w_view h h3 q _ a _ _ Hw3 Hao (moves_slice_axis sx ax)) as Hv.
  change (larr (Larry (lx y) (<[ax := l']> (llabel y)))) with (larr y) in Hv.
  destruct (slice_axis (larr y) sx ax) as [b|e]; cbn [mbind res_bind].
  - destruct Hv as (c & h4 & Hv & Hsx & Hw4). eapply working_gives; [|done]. by runs.
  - exists h3. split; [|apply Hw3]. by fails.
Qed.
Lemma gives_h_lag h p y nlag axis : read_larry h p = Some y -> gives h (h_lag p nlag axis) (lag y nlag axis).
Proof.
  intros Hp. unfold h_lag, lag. destruct axis as [axis|]; [|by apply gives_err].
  change (of_opt IndexError (Some axis)) with (Ok axis). cbn [mbind res_bind].
  eapply gives_eq; [by erewrite bind_run by done|]. case_decide; [|case_decide].
  - by apply gives_h_lag_by.
  - by apply gives_h_lag_by.
  - by apply gives_h_copy.
Qed.
Lemma new_outer_ok h h1 is label : ext h h1 -> mapM (h_lists h1 !!.) is = Some label -> NoDup is ->
  exists h2 o, new_outer is h1 = (h2, Ok o) /\ ext h1 h2 /\ lab_ok h h2 o label.
Proof.
  intros He Hm Hd. eexists _, _. split; [apply new_outer_run|]. split; [apply grow_ext|]. split; [by apply ext_le|].
  exists is. simpl. rewrite lookup_app_r, Nat.sub_diag by lia. rewrite app_nil_r. done.
Qed.
Lemma mapM_reverse (ls : list (list lab)) (is : list nat) label : mapM (ls !!.) is = Some label -> mapM (ls !!.) (reverse is) = Some (reverse label).
Proof. rewrite !mapM_Some. apply Forall2_reverse. Qed.
Lemma gives_h_T h p y : read_larry h p = Some y -> gives h (h_T p) (larry_T y).
Proof.
  intros Hp. destruct (h_copy_ok h h p y (ext_refl h) Hp) as (h1 & q & Hc & _ & Hw). unfold h_T, larry_T.
  destruct (w_ld_x h h1 q y Hw) as (a & Ha & Hao & _).
  pose proof (w_view h h1 q y a _ _ Hw Hao (moves_transpose ValueError)) as Hv. simpl in Hv.
  destruct (of_opt ValueError (transpose (larr y))) as [b|e]; cbn [mbind res_bind].
  2:{ exists h1. split; [by fails|apply Hw]. }
  destruct Hv as (c & h2 & Hv & Hsx & Hw2). destruct (w_label h h2 q _ Hw2) as (o & is & Ho & His & Hat & Hlen & Hm & Hd). simpl in Hm.
  destruct (new_outer_ok h h2 (reverse is) (reverse (llabel y))) as (h3 & o' & Hno & He3 & Hl3);
    [apply Hw2|by apply mapM_reverse|by rewrite reverse_Permutation|].
  destruct (w_set_label h h3 q _ o' _ (working_ext _ _ _ _ _ He3 Hw2) Hl3) as (h4 & Hsl & Hw4).
  eapply working_gives; [|done]. by runs.
Qed.
Lemma swap_at_rel {A B} (R : A -> B -> Prop) i j l k : Forall2 R l k -> option_Forall2 (Forall2 R) (swap_at i j l) (swap_at i j k).
Proof.
  intros H. unfold swap_at. rewrite Forall2_lookup in H. pose proof (H i) as Hi. pose proof (H j) as Hj. apply Forall2_lookup in H.
  destruct Hi; simpl; [|constructor]. destruct Hj; simpl; constructor. by apply Forall2_insert; [apply Forall2_insert|].
Qed.
Lemma swap_at_perm {A} i j (l k : list A) : swap_at i j l = Some k -> NoDup l -> NoDup k.
Proof.
  intros H Hd. apply NoDup_alt. intros a b x Ha Hb. 
  pose proof (swap_at_lookup i j l k a H) as Ha'. pose proof (swap_at_lookup i j l k b H) as Hb'.
  rewrite Ha in Ha'. rewrite Hb in Hb'. symmetry in Ha', Hb'. pose proof (NoDup_lookup l _ _ x Hd Ha' Hb') as He.
  repeat case_decide; lia.
Qed.
Lemma gives_h_swapaxes h p y a1 a2 : read_larry h p = Some y -> gives h (h_swapaxes p a1 a2) (swapaxes y a1 a2).
Proof.
  intros Hp. destruct (h_copy_ok h h p y (ext_refl h) Hp) as (h1 & q & Hc & _ & Hw). unfold h_swapaxes, swapaxes.
  destruct (w_label h h1 q y Hw) as (o & is & Ho & His & Hat & Hlen & Hm & Hd). unfold py_axis. rewrite <-Hlen.
  destruct (py_index (length is) a1) as [i|] eqn:Hi; cbn [of_opt mbind res_bind]; [|exists h1; split; [by fails|apply Hw]].
  destruct (py_index (length is) a2) as [j|] eqn:Hj; cbn [of_opt mbind res_bind]; [|exists h1; split; [by fails|apply Hw]].
  apply mapM_Some in Hm as Hm'. pose proof (swap_at_rel _ i j _ _ Hm') as Hsw.
  destruct (swap_at i j (llabel y)) as [label|] eqn:Hsl; cbn [of_opt mbind res_bind].
  2:{ inversion Hsw as [|Hno]. symmetry in Hno. exists h1. split; [by fails|apply Hw]. }
  inversion Hsw as [is' label' Hr Hs' Heq|]; subst label'. symmetry in Hs'. apply mapM_Some in Hr.
  destruct Hw as (He & Hq & a & o' & Hob & Hl & Ha). destruct Hat as (_ & a' & Hob'). rewrite Hob in Hob'. injection Hob' as <- <-.
  destruct (set_outer_ok h h1 o' (llabel y) is' label) as (h2 & Hso & He2 & Hl2 & Hr2); [done|done|done|by eapply swap_at_perm|].
  pose proof (working_rest h h1 h2 q a o' y label Hq Hob Ha He2 Hr2 Hl2) as Hw2.
  destruct (w_ld_x h h2 q _ Hw2) as (b & Hb & Hbo & _).
  pose proof (w_view h h2 q _ b _ _ Hw2 Hbo (moves_swapaxes ValueError i j)) as Hv.
  change (larr (Larry (lx y) label)) with (larr y) in Hv. cbn beta in Hv.
  destruct (of_opt ValueError (np_swapaxes (larr y) i j)) as [c|e]; cbn [mbind res_bind].
  - destruct Hv as (d & h3 & Hv & Hsx & Hw3). eapply working_gives; [|done]. by runs.
  - exists h2. split; [by fails|done].
Qed.
(** * New labels for an axis *)

(** Running with the equations at hand, reading larrys too. *)
Ltac known_step ::= first [eassumption | apply lift_some; eassumption | apply lift_none; eassumption | apply lift_is; eassumption
  | apply value_ok; eassumption | reflexivity].
Lemma gives_relabelled h p y z ax l : read_larry h p = Some y -> llabel z = <[ax := l]> (llabel y) ->
  gives h (o ← copylabel p; i ← new_list l; _ ← set_axis o ax i; a ← alloc (lx z); new_obj a o) (Ok z).
Proof.
  intros Hp Hl. destruct (copylabel_ok h h p y (ext_refl h) Hp) as (h1 & o & Hc & _ & He1 & Hlo).
  destruct (l_relabel h h1 o (llabel y) ax l He1 Hlo) as (h2 & j & h3 & Hn & _ & Hs & He3 & Hl3 & _).
  destruct (alloc_ok h h3 (lx z) He3) as (h4 & a & Ha & He34 & He4 & Hx).
  destruct (new_obj_ok h h4 a o (lx z) (llabel z)) as (h5 & q & Hq & Hw); [done| |done|].
  { rewrite Hl. eapply lab_ok_ext; [exact He34|exact Hl3]. }
  destruct z as [zx zl]. eapply working_gives; [|exact Hw]. by runs.
Qed.
Lemma gives_relabelled' h p y z ax l : read_larry h p = Some y -> llabel z = <[ax := l]> (llabel y) ->
  gives h (a ← alloc (lx z); o ← copylabel p; i ← new_list l; _ ← set_axis o ax i; new_obj a o) (Ok z).
Proof.
  intros Hp Hl. destruct (alloc_ok h h (lx z) (ext_refl h)) as (h1 & a & Ha & He1 & _ & Hx).
  destruct (copylabel_ok h h1 p y He1) as (h2 & o & Hc & He12 & He2 & Hlo); [by eapply read_larry_ext|].
  destruct (l_relabel h h2 o (llabel y) ax l He2 Hlo) as (h3 & j & h4 & Hn & _ & Hs & He4 & Hl4 & Hr).
  assert (arr_ok h h4 a (lx z)) as Hx4.
  { eapply same_rest_arr; [exact Hr|]. eapply arr_ok_ext; [exact He12|done]. }
  destruct (new_obj_ok h h4 a o (lx z) (llabel z)) as (h5 & q & Hq & Hw); [done|by rewrite Hl|done|].
  destruct z as [zx zl]. eapply working_gives; [|exact Hw]. by runs.
Qed.
Lemma gives_of h m r s : r = s -> gives h m s -> gives h m r.
Proof. by intros ->. Qed.
Lemma axis_label_insert y z ax l : axis_label y ax = Ok l -> forall k, llabel z = <[ax := k]> (llabel y) -> axis_label z ax = Ok k.
Proof.
  unfold axis_label. intros Hl k ->. rewrite list_lookup_insert; [done|]. apply lookup_lt_is_Some.
  destruct (llabel y !! ax); [by eexists|discriminate Hl].
Qed.
Lemma gives_h_take h p y indices axis : read_larry h p = Some y -> gives h (h_take p indices axis) (larry_take y indices axis).
Proof.
  intros Hp. apply (gives_value _ _ y); [done|]. destruct (larry_take y indices axis) as [z|e] eqn:Hz; [|by apply gives_err].
  pose proof Hz as (ax & Hax & Hz1)%bind_ok. apply bind_ok in Hz1 as (l & Hl & Hz1). apply bind_ok in Hz1 as (k & Hk & Hz1).
  destruct (py_nodup k); [|discriminate Hz1]. apply bind_ok in Hz1 as (b & _ & [= Hz1]).
  apply (gives_lift_ok _ _ z); [done|]. apply (gives_lift_ok _ _ ax); [done|].
  apply (gives_lift_ok _ _ k); [by eapply axis_label_insert; [|by rewrite <-Hz1]|].
  apply (gives_relabelled h p y z ax k); [done|]. by rewrite <-Hz1.
Qed.
Lemma gives_h_keep_label h p y op axis : read_larry h p = Some y -> gives h (h_keep_label p op axis) (keep_label y op axis).
Proof.
  intros Hp. apply (gives_value _ _ y); [done|]. destruct (keep_label y op axis) as [z|e] eqn:Hz; [|by apply gives_err].
  pose proof Hz as (axis' & Ha & Hz1)%bind_ok. destruct (decide _) as [|_] in Hz1; [discriminate Hz1|].
  apply bind_ok in Hz1 as (ax & Hax & Hz1). apply bind_ok in Hz1 as (l & Hl & Hz1). apply bind_ok in Hz1 as (idx & Hidx & Hz1).
  apply (gives_lift_ok _ _ z); [done|]. apply (gives_lift_ok _ _ axis'); [done|]. apply (gives_lift_ok _ _ ax); [done|].
  apply (gives_lift_ok _ _ l); [done|]. apply (gives_lift_ok _ _ idx); [done|].
  destruct idx as [|i0 idx]; [apply gives_h_new|].
  apply bind_ok in Hz1 as (k & Hk & Hz1). apply bind_ok in Hz1 as (b & _ & [= Hz1]).
  destruct (h_copy_ok h h p y (ext_refl h) Hp) as (h1 & q & Hc & _ & Hw).
  assert (llabel z = <[ax := k]> (llabel y)) as Hzl by (by rewrite <-Hz1).
  pose proof (axis_label_insert y z ax l Hl k Hzl) as Hzk.
  destruct (w_label h h1 q y Hw) as (o & is & Ho & His & Hat & Hlen & Hm & Hd).
  destruct (w_relabel h h1 q y o is ax k Hw Hat) as (h2 & j & h3 & Hn & Hsa & Hw3).
  destruct (w_assign h h3 q _ (lx z) Hw3) as (h4 & b' & h5 & Hal & _ & Hsx & _ & Hw5).
  simpl in Hw5. rewrite <-Hzl in Hw5. destruct z as [zx zl]. eapply working_gives; [|exact Hw5].
  assert (ld_label q h2 = (h2, Ok o)) as Ho2.
  { rewrite (new_list_run k h1) in Hn. injection Hn as <- _. unfold ld_label, look in *. simpl. rewrite app_nil_r. injection Ho as Ho. by rewrite Ho. }
  by runs.
Qed.
Lemma gives_h_morph h p y label axis : read_larry h p = Some y -> gives h (h_morph p label axis) (morph y label axis).
Proof.
  intros Hp. apply (gives_value _ _ y); [done|]. destruct (morph y label axis) as [z|e] eqn:Hz; [|by apply gives_err].
  pose proof Hz as Hz1. unfold morph in Hz1. destruct (decide _) as [|_] in Hz1; [discriminate Hz1|].
  apply bind_ok in Hz1 as (ax & Hax & Hz1). apply bind_ok in Hz1 as (old & Hold & Hz1).
  apply (gives_lift_ok _ _ z); [done|]. apply (gives_lift_ok _ _ ax); [done|]. apply (gives_lift_ok _ _ old); [done|].
  destruct (decide (old = label)); [injection Hz1 as <-; by apply gives_h_copy|].
  apply (gives_relabelled' h p y z ax label); [done|].
  destruct (listmap_fill old label 0) as [idx idx_miss]. apply bind_ok in Hz1 as (x & _ & Hz1). destruct (py_nodup label); [by injection Hz1 as <-|discriminate Hz1].
Qed.

(** Calls one after the other. *)
Lemma gives_bind h m r (k : nat -> cmd nat) (f : larry -> res larry) : gives h m r ->
  (forall h' q y, r = Ok y -> ext h h' -> has h' q y -> gives h' (k q) (f y)) ->
  gives h (q ← m; k q) (y ← r; f y).
Proof.
  intros Hm Hk. destruct r as [y|e]; simpl.
  - destruct Hm as (h1 & q & Hm & He & Hq). specialize (Hk h1 q y eq_refl He Hq). unfold gives in *.
    destruct (f y) as [z|e].
    + destruct Hk as (h2 & s & Hk & He2 & Hs). exists h2, s. rewrite (bind_run _ _ _ _ _ Hm).
      split; [done|]. split; [by eapply ext_trans|done].
    + destruct Hk as (h2 & Hk & He2). exists h2. rewrite (bind_run _ _ _ _ _ Hm). split; [done|by eapply ext_trans].
  - destruct Hm as (h1 & Hm & He). exists h1. by rewrite (bind_fail _ _ _ _ _ Hm).
Qed.
Lemma gives_fold {X} (f : nat -> X -> cmd nat) (g : larry -> X -> res larry) l h0 : forall h p y,
  (forall h p y x, ext h0 h -> has h p y -> gives h (f p x) (g y x)) -> ext h0 h -> has h p y -> gives h (foldC f p l) (foldM g y l).
Proof.
  induction l as [|x l IH]; intros h p y Hfg He Hp; simpl.
  - exists h, p. split; [done|]. split; [apply ext_refl|done].
  - apply (gives_bind h (f p x) (g y x) (fun q => foldC f q l) (fun z => foldM g z l)); [by apply Hfg|].
    intros h' q z _ He' Hq. apply IH; [done| |done]. by eapply ext_trans.
Qed.
Lemma gives_h_morph_like h p r y lar : has h p y -> read_larry h r = Some lar -> gives h (h_morph_like p r) (morph_like y lar).
Proof.
  intros Hp Hr. apply (gives_value _ _ y); [apply Hp|]. apply (gives_value _ _ lar); [done|].
  unfold morph_like. destruct (decide (lndim y <> lndim lar)); [by apply gives_err|].
  apply (gives_fold _ _ _ h); [|apply ext_refl|done].
  intros h1 q z i He Hq. apply gives_lift. intros l _. by apply gives_h_morph, Hq.
Qed.
Lemma gives_h_sortaxis h p y axis reverse : has h p y -> gives h (h_sortaxis p axis reverse) (sortaxis y axis reverse).
Proof.
  intros Hp. apply (gives_value _ _ y); [apply Hp|]. unfold sortaxis. apply (gives_fold _ _ _ h); [|apply ext_refl|done].
  intros h1 q z a He Hq. unfold h_sortaxis_step, sortaxis_step. apply gives_lift. intros n _.
  destruct (decide (1 < n)); [|apply gives_h_copy, Hq].
  apply gives_lift. intros ax _. apply gives_lift. intros la _. apply gives_lift. intros index _. by apply gives_h_morph, Hq.
Qed.

(** * insertaxis *)

Lemma view_ok h h1 a x f g : arr_ok h h1 a x -> moves f g ->
  match g (nd_arr x) with
  | Ok b => exists c, view f a h1 = (h1, Ok c) /\ arr_ok h h1 c (Nda (nd_dtype x) b)
  | Err e => view f a h1 = (h1, Err e)
  end.
Proof.
  intros (Hn & Hr & Hd) [Hfg Hnd]. pose proof (view_run f g a h1 x (fun d b => Hfg d _ b) Hr) as Hv.
  destruct (g (nd_arr x)) as [b|e]; [|done]. destruct Hv as (c & Hv & Hc). exists (HArr (a_buf a) c). split; [done|].
  split; [done|]. split; [done|]. simpl. apply (Hnd (a_pos a)); [|done].
  unfold view, mbind, cmd_bind, lift in Hv. destruct (f (a_pos a)); [by injection Hv as ->|discriminate Hv].
Qed.
Lemma mapM_insert_at (ls : list (list lab)) (is : list nat) (label : list (list lab)) k l : mapM (ls !!.) is = Some label -> NoDup is ->
  mapM ((ls ++ [l]) !!.) (insert_at k (length ls) is) = Some (insert_at k l label) /\ NoDup (insert_at k (length ls) is).
Proof.
  rewrite !mapM_Some. intros Hm Hd.
  assert (Forall2 (fun i l0 => (ls ++ [l]) !! i = Some l0) is label) as Hm'.
  { eapply Forall2_impl; [exact Hm|]. intros i l0 Hi. by apply lookup_app_l_Some. }
  assert (Forall (fun i => i < length ls) is) as Hlt.
  { apply Forall_lookup. intros k0 i Hi. apply Forall2_lookup with (i := k0) in Hm. rewrite Hi in Hm. inversion Hm.
    by eapply lookup_lt_Some. }
  unfold insert_at. split.
  - apply Forall2_app; [by apply Forall2_take|]. constructor; [by rewrite lookup_app_r, Nat.sub_diag by lia|by apply Forall2_drop].
  - rewrite <-Permutation_middle, take_drop. constructor; [|done]. intros Hin. rewrite Forall_forall in Hlt. specialize (Hlt _ Hin). lia.
Qed.
Lemma gives_h_insertaxis h p y axis label : read_larry h p = Some y -> gives h (h_insertaxis p axis label) (insertaxis y axis label).
Proof.
  intros Hp. apply (gives_value _ _ y); [done|]. destruct (insertaxis y axis label) as [z|e] eqn:Hz; [|by apply gives_err].
  pose proof Hz as (axis' & Ha & Hz1)%bind_ok. apply make_some_ok in Hz1 as (Hz1 & _).
  apply (gives_lift_ok _ _ z); [done|]. apply (gives_lift_ok _ _ axis'); [done|].
  pose proof Hp as (ob & is0 & Hob & Hx & Ho0 & Hl0)%read_larry_Some.
  assert (ld_x p h = (h, Ok (o_x ob))) as Hld by (unfold ld_x, look; by rewrite Hob).
  assert (load (o_x ob) h = (h, Ok (lx y))) as Hlo by (unfold load, look; by rewrite Hx).
  destruct (alloc_ok h h (lx y) (ext_refl h)) as (h1 & a & Hal & He1 & _ & Hax).
  pose proof (view_ok h h1 a (lx y) _ _ Hax (moves_expand_dims axis')) as (c & Hv & Hc). simpl in Hc.
  destruct (copylabel_ok h h1 p y He1) as (h2 & o & Hcl & He12 & He2 & Hlo2); [by eapply read_larry_ext|].
  pose proof Hlo2 as (Hn & is & His & Hm & Hd).
  assert (get_outer o h2 = (h2, Ok is)) as Hgo by (unfold get_outer, look; by rewrite His).
  apply mapM_Some in Hm as Hm'. apply Forall2_length in Hm'.
  set (k := clamp_pos (length is) (if decide (axis' = -1)%Z then Z.of_nat (length is)
            else if decide (axis' < -1)%Z then (axis' + 1)%Z else axis')).
  destruct (mapM_insert_at _ _ _ k [label] Hm Hd) as [Hm2 Hd2].
  pose proof (new_list_run [label] h2) as Hnl. set (h3 := grow h2 [] [[label]] [] []) in *.
  assert (ext h2 h3) as He23 by apply grow_ext.
  destruct (set_outer_ok h h3 o (llabel y) (insert_at k (length (h_lists h2)) is) (insert_at k [label] (llabel y)))
    as (h4 & Hso & He4 & Hl4 & Hr4); [by eapply ext_trans|by eapply lab_ok_ext|done|done|].
  assert (arr_ok h h4 c (Nda (ldtype y) (expand_dims (larr y) axis'))) as Hc4.
  { eapply same_rest_arr; [exact Hr4|]. eapply arr_ok_ext; [|exact Hc]. by eapply ext_trans. }
  destruct (new_obj_ok h h4 c o _ _ He4 Hl4 Hc4) as (h5 & q & Hq & Hw).
  eapply working_gives; [|]. { runs. exact Hq. }
  rewrite Hz1. unfold k in Hw. by rewrite Hm' in Hw.
Qed.
