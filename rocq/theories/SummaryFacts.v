(** Summaries of summaries. *)
From Verif Require Export ReorderMain SpecSummary.

(** * The lanes of an array *)
Lemma NoDup_bind' {A B} (f : A -> list B) l :
  NoDup l -> (forall x, x ∈ l -> NoDup (f x)) -> (forall x x' z, x ∈ l -> x' ∈ l -> z ∈ f x -> z ∈ f x' -> x = x') -> NoDup (l ≫= f).
Proof.
  induction l as [|x l IH]; intros Hn Hf Hd; [constructor|]. inversion Hn as [|? ? Hx Hl]; subst. csimpl. apply NoDup_app. split_and!.
  - apply Hf. constructor.
  - intros z Hz (x' & Hz' & Hx')%elem_of_list_bind. assert (x = x') as <- by (eapply Hd; [constructor|by constructor|done|done]). done.
  - apply IH; [done|intros; apply Hf; by constructor|]. intros a b z Ha Hb. apply Hd; by constructor.
Qed.
Lemma indices_lanes sh ax n : sh !! ax = Some n ->
  (indices (remove_at ax sh) ≫= fun idx => (fun k => insert_at ax k idx) <$> seq 0 n) ≡ₚ indices sh.
Proof.
  intros Hn. pose proof (lookup_lt_Some _ _ _ Hn) as Hax. assert (Hlen : forall idx, in_range (remove_at ax sh) idx -> ax <= length idx).
  { intros idx Hi%in_range_length. rewrite remove_at_length in Hi by done. lia. }
  apply NoDup_Permutation.
  - apply NoDup_bind'; [apply NoDup_indices| |].
    + intros idx Hi%elem_of_indices. apply NoDup_fmap_2_strong; [|apply NoDup_seq]. intros p q _ _ E.
      pose proof (insert_at_lookup ax p idx (Hlen _ Hi)) as H1. pose proof (insert_at_lookup ax q idx (Hlen _ Hi)) as H2. congruence.
    + intros i i' z Hi%elem_of_indices Hi'%elem_of_indices (k & -> & _)%elem_of_list_fmap (k' & E & _)%elem_of_list_fmap.
      apply Hlen in Hi. apply Hlen in Hi'. rewrite <-(remove_insert_at ax k i), <-(remove_insert_at ax k' i') by done. by rewrite E.
  - apply NoDup_indices.
  - intros z. rewrite elem_of_list_bind, elem_of_indices. split.
    + intros (idx & Hz & Hi%elem_of_indices). apply elem_of_list_fmap in Hz as (k & -> & Hk). apply elem_of_seq in Hk.
      rewrite <-(insert_remove_at ax n sh Hn). apply in_range_insert_at; [rewrite remove_at_length by done; lia|by apply in_range_length|]. split; [lia|done].
    + intros Hz. destruct (lookup_lt_is_Some_2 z ax) as [k Hk]; [rewrite (in_range_length _ _ Hz); done|].
      exists (remove_at ax z). split.
      * apply elem_of_list_fmap. exists k. split; [symmetry; by apply insert_remove_at|]. apply elem_of_seq. pose proof (in_range_lookup _ _ _ _ _ Hz Hn Hk). lia.
      * apply elem_of_indices. by eapply in_range_remove_at.
Qed.
Lemma mapM_omap {A B} (f : A -> option B) l r : mapM f l = Some r -> omap f l = r.
Proof. intros H%mapM_Some. induction H as [|x y l r Hxy _ IH]; [done|]. cbn [omap list_omap]. rewrite Hxy. by f_equal. Qed.
Lemma data_omap {A} (a : arr A) : arr_wf a -> data a = omap (aget a) (indices (shape a)).
Proof. intros H. symmetry. by apply mapM_omap, data_mapM. Qed.
Lemma omap_bind {A B C} (f : B -> option C) (g : A -> list B) l : omap f (l ≫= g) = l ≫= fun x => omap f (g x).
Proof. induction l as [|x l IH]; [done|]. csimpl. by rewrite omap_app, IH. Qed.
Lemma mapM_fmap_inv {A B C} (f : B -> C) (g : A -> option B) l r : mapM (fun x => f <$> g x) l = Some r -> exists ls, Forall2 (fun x y => g x = Some y) l ls /\ r = f <$> ls.
Proof.
  intros H%mapM_Some. induction H as [|x y l r Hxy _ (ls & Hls & ->)]; [by exists []|]. apply fmap_Some in Hxy as (v & Hv & ->).
  exists (v :: ls). split; [by constructor|done].
Qed.
Lemma lane_omap {A} (a : arr A) ax n idx l : shape a !! ax = Some n -> ax <= length idx -> lane a ax (insert_at ax 0 idx) = Some l ->
  l = omap (aget a) ((fun k => insert_at ax k idx) <$> seq 0 n) /\ length l = n.
Proof.
  intros Hn Hax Hl. split.
  - unfold lane, axlen in Hl. rewrite Hn in Hl. simpl in Hl. apply mapM_omap in Hl as <-. generalize (seq 0 n). intros ks. induction ks as [|k ks IH]; [done|].
    csimpl. rewrite insert_insert_at by done. by rewrite IH.
  - apply lane_Some in Hl as (n' & Hn' & Hlen & _). congruence.
Qed.
Lemma reduce_lanes {A B} (f : list A -> B) (a : arr A) ax b : arr_wf a -> reduce f a ax = Some b ->
  exists ls n, data b = f <$> ls /\ concat ls ≡ₚ data a /\ shape a !! ax = Some n /\ Forall (fun l => length l = n) ls.
Proof.
  intros Hwf Hb. unfold reduce, axlen in Hb. destruct (shape a !! ax) as [n|] eqn:En; [|done]. simpl in Hb. unfold build in Hb.
  apply fmap_Some in Hb as (d & Hd & ->). simpl. pose proof (lookup_lt_Some _ _ _ En) as Hax. apply mapM_fmap_inv in Hd as (ls & Hls & ->).
  assert (Hin : Forall (fun idx : list nat => ax <= length idx) (indices (remove_at ax (shape a)))).
  { apply Forall_forall. intros idx Hi%elem_of_indices%in_range_length. rewrite remove_at_length in Hi by done. lia. }
  assert (H : concat ls = omap (aget a) (indices (remove_at ax (shape a)) ≫= fun idx => (fun k => insert_at ax k idx) <$> seq 0 n) /\ Forall (fun l => length l = n) ls).
  { rewrite omap_bind. revert Hin. induction Hls as [|idx l I ls Hl _ IH]; intros Hin; [by split|]. inversion Hin as [|? ? H1 H2]; subst.
    destruct (IH H2) as [HC HF]. destruct (lane_omap a ax n idx l En H1 Hl) as [HL Hlen]. split; [|by constructor]. csimpl. by rewrite HC, <-HL. }
  destruct H as [Hc HF]. exists ls, n. split_and!; try done. rewrite Hc, (data_omap a Hwf). by apply omap_perm, indices_lanes.
Qed.

(** * Summaries of lists of lists *)
Definition topmost {A} (le : A -> A -> Prop) (l : list A) (m : A) : Prop := m ∈ l /\ forall n, n ∈ l -> le n m.
Lemma topmost_unique {A} (le : A -> A -> Prop) l m m' : (forall a b, le a b -> le b a -> a = b) -> topmost le l m -> topmost le l m' -> m = m'.
Proof. intros Ha [H1 H2] [H3 H4]. apply Ha; [by apply H4|by apply H2]. Qed.
Lemma topmost_concat {A} (le : A -> A -> Prop) ls ms m : (forall a b c, le a b -> le b c -> le a c) ->
  Forall2 (topmost le) ls ms -> topmost le ms m -> topmost le (concat ls) m.
Proof.
  intros Ht H [Hm Hle]. split.
  - apply elem_of_list_lookup in Hm as [i Hi]. destruct (Forall2_lookup_r _ _ _ _ _ H Hi) as (l & Hl & [Hin _]).
    apply elem_of_list_In, in_concat. exists l. split; apply elem_of_list_In; [by eapply elem_of_list_lookup_2|done].
  - intros n (l & Hl & Hn)%elem_of_list_In%in_concat. apply elem_of_list_In in Hl, Hn. apply elem_of_list_lookup in Hl as [i Hi].
    destruct (Forall2_lookup_l _ _ _ _ _ H Hi) as (k & Hk & [_ Hmax]). eapply Ht; [by apply Hmax|]. apply Hle. by eapply elem_of_list_lookup_2.
Qed.
Lemma topmost_perm {A} (le : A -> A -> Prop) l l' m : l ≡ₚ l' -> topmost le l m -> topmost le l' m.
Proof. intros Hp [H1 H2]. split; [by rewrite <-Hp|]. intros n Hn. apply H2. by rewrite Hp. Qed.
Lemma zmax_top l a : topmost Z.le (a :: l) (fold_left Z.max l a).
Proof.
  revert a. induction l as [|x l IH]; intros a; simpl.
  - split; [constructor|]. intros n Hn%elem_of_list_singleton. lia.
  - destruct (IH (Z.max a x)) as [H1 H2]. assert (Hm : (Z.max a x <= fold_left Z.max l (Z.max a x))%Z) by (apply H2; constructor). split.
    + rewrite !elem_of_cons in *. destruct H1 as [->|H1]; [|tauto]. destruct (Z.max_spec a x) as [[_ ->]|[_ ->]]; tauto.
    + intros n. rewrite !elem_of_cons. intros [->|[->|Hn]]; [lia|lia|]. apply H2. by constructor.
Qed.
Lemma zmin_top l a : topmost (fun x y => y <= x)%Z (a :: l) (fold_left Z.min l a).
Proof.
  revert a. induction l as [|x l IH]; intros a; simpl.
  - split; [constructor|]. intros n Hn%elem_of_list_singleton. lia.
  - destruct (IH (Z.min a x)) as [H1 H2]. assert (Hm : (fold_left Z.min l (Z.min a x) <= Z.min a x)%Z) by (apply H2; constructor). split.
    + rewrite !elem_of_cons in *. destruct H1 as [->|H1]; [|tauto]. destruct (Z.min_spec a x) as [[_ ->]|[_ ->]]; tauto.
    + intros n. rewrite !elem_of_cons. intros [->|[->|Hn]]; [lia|lia|]. apply H2. by constructor.
Qed.
Lemma num_le_trans' a b c : num_le a b -> num_le b c -> num_le a c.
Proof. apply num_le_trans. Qed.
Lemma fold1_top {A} (le : A -> A -> Prop) (P : A -> Prop) f d ls :
  (forall a b, le a b -> le b a -> a = b) -> (forall a b c, le a b -> le b c -> le a c) ->
  (forall l, l <> [] -> Forall P l -> topmost le l (fold1 f d l)) ->
  ls <> [] -> Forall (fun l => l <> []) ls -> Forall (Forall P) ls ->
  fold1 f d (fold1 f d <$> ls) = fold1 f d (concat ls).
Proof.
  intros Ha Ht Hf Hne Hnes HP. assert (H2 : Forall2 (topmost le) ls (fold1 f d <$> ls)).
  { apply Forall2_fmap_r, Forall_Forall2_diag, Forall_forall. intros l Hl. apply Hf; [by eapply Forall_forall in Hnes|by eapply Forall_forall in HP]. }
  eapply (topmost_unique le (concat ls)); [done| |].
  - eapply topmost_concat; [done|done|]. apply Hf; [by destruct ls|]. apply Forall_forall. intros m Hm.
    apply elem_of_list_lookup in Hm as [i Hi]. destruct (Forall2_lookup_r _ _ _ _ _ H2 Hi) as (l & Hl & [Hin _]).
    eapply (Forall_forall P l); [|done]. eapply (Forall_forall (Forall P) ls); [done|]. by eapply elem_of_list_lookup_2.
  - apply Hf; [|by apply Forall_concat]. destruct ls as [|l ls]; [done|]. inversion Hnes; subst. by destruct l.
Qed.
Lemma existsb_concat' {A} (p : A -> bool) ls : existsb p (concat ls) = existsb (fun l => existsb p l) ls.
Proof. induction ls as [|l ls IH]; [done|]. simpl. by rewrite existsb_app, IH. Qed.
Lemma forallb_concat' {A} (p : A -> bool) ls : forallb p (concat ls) = forallb (fun l => forallb p l) ls.
Proof. induction ls as [|l ls IH]; [done|]. simpl. by rewrite forallb_app, IH. Qed.
Lemma existsb_fmap {A B} (f : A -> B) p l : existsb p (f <$> l) = existsb (fun x => p (f x)) l.
Proof. induction l as [|x l IH]; [done|]. csimpl. by rewrite IH. Qed.
Lemma forallb_fmap {A B} (f : A -> B) p l : forallb p (f <$> l) = forallb (fun x => p (f x)) l.
Proof. induction l as [|x l IH]; [done|]. csimpl. by rewrite IH. Qed.
Lemma omap_concat {A B} (f : A -> option B) (ls : list (list A)) : omap f (concat ls) = concat ((fun l : list A => omap f l) <$> ls).
Proof. induction ls as [|l ls IH]; [done|]. csimpl. by rewrite omap_app, IH. Qed.
Lemma filter_concat {A} (P : A -> Prop) `{forall x, Decision (P x)} (ls : list (list A)) : filter P (concat ls) = concat ((fun l : list A => filter P l) <$> ls).
Proof. induction ls as [|l ls IH]; [done|]. csimpl. by rewrite filter_app, IH. Qed.
Lemma lane_nums_concat ls : lane_nums (concat ls) = concat (lane_nums <$> ls).
Proof. unfold lane_nums. rewrite omap_concat, filter_concat, <-list_fmap_compose. done. Qed.
Lemma lane_ints_concat ls : lane_ints (concat ls) = concat (lane_ints <$> ls).
Proof. apply omap_concat. Qed.
Lemma zsum_from l a : fold_left Z.add l a = (a + fold_left Z.add l 0)%Z.
Proof. revert a. induction l as [|x l IH]; intros a; [simpl; lia|]. cbn [fold_left]. rewrite (IH (a + x)%Z), (IH (0 + x)%Z). lia. Qed.
Lemma zsum_concat ls : fold_left Z.add (concat ls) 0%Z = fold_left Z.add ((fun l => fold_left Z.add l 0%Z) <$> ls) 0%Z.
Proof. induction ls as [|l ls IH]; [done|]. csimpl. rewrite fold_left_app, zsum_from, IH. symmetry. rewrite zsum_from. simpl. lia. Qed.
Lemma lane_ints_ints {A} (g : A -> Z) ls : lane_ints ((fun l => VInt (g l)) <$> ls) = g <$> ls.
Proof. unfold lane_ints. induction ls as [|l ls IH]; [done|]. csimpl. by rewrite IH. Qed.
Lemma lane_ints_len dt l : dt = DInt \/ dt = DBool -> Forall (fun v => has_dtype dt v = true) l -> length (lane_ints l) = length l.
Proof. intros Hd. unfold lane_ints. induction 1 as [|v l Hv _ IH]; [done|]. destruct Hd as [-> | ->]; destruct v; try done; csimpl; by rewrite IH. Qed.

(** * Floats *)
Lemma num_total_cons x l : num_total (x :: l) = num_add x (num_total l).
Proof. done. Qed.
Lemma total_class l : (num_total l = NaN -> NaN ∈ l \/ PInf ∈ l /\ NInf ∈ l) /\ (num_total l = PInf -> PInf ∈ l) /\ (num_total l = NInf -> NInf ∈ l).
Proof.
  induction l as [|x l (H1 & H2 & H3)]; [done|]. rewrite num_total_cons. rewrite !elem_of_cons.
  destruct x as [q| | |], (num_total l) as [p| | |]; cbn; split_and!; intros E; try done;
    try specialize (H1 eq_refl); try specialize (H2 eq_refl); try specialize (H3 eq_refl); tauto.
Qed.
Lemma num_add_0_l n : num_add (num_of_Z 0) n = n.
Proof. destruct n as [q| | |]; try done. cbn. f_equal. apply Qc_is_canon. simpl. rewrite Qred_correct. ring. Qed.
Lemma total_concat ls : num_total (num_total <$> ls) = num_total (concat ls).
Proof. induction ls as [|l ls IH]; [done|]. cbn [concat]. rewrite total_app, <-IH. done. Qed.
Lemma float_sum l : l <> [] -> float_red RSum l = num_total l.
Proof. destruct l; [done|]. intros _. unfold float_red. rewrite fold_total. apply num_add_0_l. Qed.
(** Lanes without numbers are left out. *)
Definition filled (ps : list (list num)) : list (list num) := filter (fun p => p <> []) ps.
Lemma concat_filled ps : concat (filled ps) = concat ps.
Proof. unfold filled. induction ps as [|p ps IH]; [done|]. rewrite filter_cons. destruct (decide (p <> [])) as [H|H]; [simpl; by rewrite IH|]. destruct p; [done|]. by destruct H. Qed.
Lemma filled_nil ps : filled ps = [] <-> concat ps = [].
Proof. split; [intros H; by rewrite <-concat_filled, H|]. intros H. unfold filled. induction ps as [|p ps IH]; [done|]. simpl in H. apply app_eq_nil in H as [-> H]. by apply IH. Qed.
Lemma red_present op g ps : (forall p, p <> [] -> float_red op p = g p) ->
  (forall p, p ∈ ps -> p <> [] -> g p <> NaN) -> filter (fun n => n <> NaN) (float_red op <$> ps) = g <$> filled ps.
Proof.
  intros Hg Hn. unfold filled. induction ps as [|p ps IH]; [done|]. csimpl. rewrite !filter_cons. destruct p as [|x p].
  - rewrite (decide_False (P := float_red op [] <> NaN)) by (intros H; by apply H). rewrite (decide_False (P := @nil num <> [])) by (intros H; by apply H).
    apply IH. intros q Hq. apply Hn. by constructor.
  - rewrite Hg by done. rewrite (decide_True (P := g (x :: p) <> NaN)) by (apply Hn; [constructor|done]). rewrite (decide_True (P := x :: p <> [])) by done.
    csimpl. f_equal. apply IH. intros q Hq. apply Hn. by constructor.
Qed.
Lemma nonnan_parts ps p : Forall (fun n => n <> NaN) (concat ps) -> p ∈ ps -> Forall (fun n => n <> NaN) p.
Proof. intros H Hp. apply Forall_forall. intros n Hn. eapply Forall_forall in H; [exact H|]. apply elem_of_list_In, in_concat. exists p. by split; apply elem_of_list_In. Qed.
Lemma sum_present ps : Forall (fun n => n <> NaN) (concat ps) -> ~ (PInf ∈ concat ps /\ NInf ∈ concat ps) ->
  float_red RSum (filter (fun n => n <> NaN) (float_red RSum <$> ps)) = float_red RSum (concat ps).
Proof.
  intros Hn Hc. rewrite (red_present RSum num_total); [|apply float_sum|].
  - destruct (decide (filled ps = [])) as [E|E]; [by rewrite E; apply filled_nil in E; rewrite E|].
    rewrite !float_sum; [|by rewrite <-filled_nil|by destruct (filled ps)]. by rewrite total_concat, concat_filled.
  - intros p Hp _ [H|[H1 H2]]%(proj1 (total_class p)).
    + pose proof (nonnan_parts ps p Hn Hp) as HF. by eapply Forall_forall in HF.
    + apply Hc. split; apply elem_of_list_In, in_concat; exists p; by split; apply elem_of_list_In.
Qed.
Lemma max_top l : l <> [] -> Forall (fun n => n <> NaN) l -> topmost num_le l (fold1 num_max NaN l).
Proof. destruct l as [|x l]; [done|]. intros _ H. inversion H; subst. by apply fold_max. Qed.
Lemma min_top l : l <> [] -> Forall (fun n => n <> NaN) l -> topmost (fun a b => num_le b a) l (fold1 num_min NaN l).
Proof. destruct l as [|x l]; [done|]. intros _ H. inversion H; subst. by apply fold_min. Qed.
Lemma ext_present (least : bool) ps : let op := if least then RMin else RMax in Forall (fun n => n <> NaN) (concat ps) ->
  float_red op (filter (fun n => n <> NaN) (float_red op <$> ps)) = float_red op (concat ps).
Proof.
  intros op Hn. set (g := if least then fold1 num_min NaN else fold1 num_max NaN). set (le := if least then fun a b => num_le b a else num_le).
  assert (Hg : forall p, p <> [] -> float_red op p = g p) by (intros [|x p] H; [done|]; unfold op, g; by destruct least).
  assert (Htop : forall p, p <> [] -> Forall (fun n => n <> NaN) p -> topmost le p (g p)) by (unfold le, g; destruct least; [apply min_top|apply max_top]).
  rewrite (red_present op g); [|done|].
  - destruct (decide (filled ps = [])) as [E|E]; [by rewrite E; apply filled_nil in E; rewrite E|].
    rewrite !Hg; [|by rewrite <-filled_nil|by destruct (filled ps)]. rewrite <-concat_filled.
    assert (HF : Forall (Forall (fun n => n <> NaN)) (filled ps)).
    { apply Forall_forall. intros p Hp. apply elem_of_list_filter in Hp as [_ Hp]. by eapply nonnan_parts. }
    assert (HE : Forall (fun p => p <> []) (filled ps)) by (apply Forall_forall; intros p Hp; by apply elem_of_list_filter in Hp as [? _]).
    unfold g. destruct least; (eapply fold1_top; [| |exact Htop|done|done|done]); unfold le.
    + intros a b H1 H2. by apply num_le_antisym.
    + intros a b c H1 H2. by eapply num_le_trans.
    + intros a b H1 H2. by apply num_le_antisym.
    + intros a b c H1 H2. by eapply num_le_trans.
  - intros p Hp Hpe. pose proof (nonnan_parts ps p Hn Hp) as HF. destruct (Htop p Hpe HF) as [Hin _]. by eapply Forall_forall in HF.
Qed.
Lemma lane_nums_floats {A} (g : A -> num) ls : lane_nums ((fun l => VFloat (g l)) <$> ls) = filter (fun n => n <> NaN) (g <$> ls).
Proof. unfold lane_nums. f_equal. induction ls as [|l ls IH]; [done|]. csimpl. by rewrite IH. Qed.
Lemma lane_nums_nonnan l : Forall (fun n => n <> NaN) (lane_nums l).
Proof. apply Forall_forall. intros n Hn. by apply elem_of_list_filter in Hn as [? _]. Qed.

(** * Larrys *)
Definition typed (dt : dtype) (l : list val) : Prop := Forall (fun v => has_dtype dt v = true) l.
Lemma typed_parts dt ls : typed dt (concat ls) -> Forall (typed dt) ls.
Proof. intros H. apply Forall_forall. intros l Hl. apply Forall_forall. intros v Hv. eapply Forall_forall in H; [exact H|]. apply elem_of_list_In, in_concat. exists l. by split; apply elem_of_list_In. Qed.
Lemma ints_filled dt ls : dt = DInt \/ dt = DBool -> typed dt (concat ls) -> Forall (fun l => l <> []) ls -> Forall (fun l => l <> []) (lane_ints <$> ls).
Proof.
  intros Hd Ht Hne. apply typed_parts in Ht. apply Forall_fmap. apply Forall_forall. intros l Hl. simpl. intros E.
  pose proof (lane_ints_len dt l Hd) as Hlen. rewrite E in Hlen. eapply Forall_forall in Ht; [|done]. specialize (Hlen Ht). eapply Forall_forall in Hne; [|done]. by destruct l.
Qed.
Lemma red_concat op dt dt' ls : op ∈ [RSum; RMax; RMin; RAny; RAll] -> red_dtype op dt = Ok dt' -> typed dt (concat ls) -> ls <> [] -> Forall (fun l => l <> []) ls ->
  (op = RSum -> ~ (VFloat PInf ∈ concat ls /\ VFloat NInf ∈ concat ls)) ->
  red_lane op dt' (red_lane op dt <$> ls) = red_lane op dt (concat ls).
Proof.
  intros Hop Hdt Ht Hne Hnes Hc.
  assert (Hany : VBool (existsb val_truth ((fun l => VBool (existsb val_truth l)) <$> ls)) = VBool (existsb val_truth (concat ls))).
  { rewrite existsb_fmap, existsb_concat'. done. }
  assert (Hall : VBool (forallb val_truth ((fun l => VBool (forallb val_truth l)) <$> ls)) = VBool (forallb val_truth (concat ls))).
  { rewrite forallb_fmap, forallb_concat'. done. }
  assert (Hsum : VInt (fold_left Z.add (lane_ints ((fun l => VInt (fold_left Z.add (lane_ints l) 0%Z)) <$> ls)) 0%Z) = VInt (fold_left Z.add (lane_ints (concat ls)) 0%Z)).
  { f_equal. rewrite lane_ints_ints, lane_ints_concat, zsum_concat, <-list_fmap_compose. done. }
  assert (Hinf : forall n, n = PInf \/ n = NInf -> dt = DFloat -> n ∈ concat (lane_nums <$> ls) -> VFloat n ∈ concat ls).
  { intros n Hn -> Hin. rewrite <-lane_nums_concat in Hin. apply elem_of_list_filter in Hin as [_ Hin]. apply elem_of_list_omap in Hin as (v & Hv & E).
    pose proof (proj1 (Forall_forall _ _) Ht v Hv) as Hh. destruct v; try done. simpl in E. by injection E as ->. }
  assert (Hnn : Forall (fun n => n <> NaN) (concat (lane_nums <$> ls))) by (rewrite <-lane_nums_concat; apply lane_nums_nonnan).
  rewrite !elem_of_cons, elem_of_nil in Hop. destruct Hop as [->|[->|[->|[->|[->|[]]]]]]; destruct dt; simpl in Hdt; try done; injection Hdt as <-; try done; unfold red_lane.
  - rewrite lane_nums_floats, lane_nums_concat. f_equal. rewrite (list_fmap_compose lane_nums (float_red RSum)).
    apply sum_present; [done|]. intros [H1 H2]. apply Hc; [done|]. split; apply Hinf; auto.
  - rewrite lane_nums_floats, lane_nums_concat. f_equal. rewrite (list_fmap_compose lane_nums (float_red RMax)). by apply (ext_present false).
  - f_equal. rewrite lane_ints_ints, lane_ints_concat. rewrite (list_fmap_compose lane_ints (fold1 Z.max 0%Z)).
    apply (fold1_top Z.le (fun _ => True)); [intros; lia|intros; lia| |by destruct ls|by eapply ints_filled; [left|..]|].
    + intros [|x l] H _; [done|]. apply zmax_top.
    + apply Forall_forall. intros l _. by apply Forall_forall.
  - rewrite lane_nums_floats, lane_nums_concat. f_equal. rewrite (list_fmap_compose lane_nums (float_red RMin)). by apply (ext_present true).
  - f_equal. rewrite lane_ints_ints, lane_ints_concat. rewrite (list_fmap_compose lane_ints (fold1 Z.min 0%Z)).
    apply (fold1_top (fun x y => y <= x)%Z (fun _ => True)); [intros; lia|intros; lia| |by destruct ls|by eapply ints_filled; [left|..]|].
    + intros [|x l] H _; [done|]. apply zmin_top.
    + apply Forall_forall. intros l _. by apply Forall_forall.
Qed.
Lemma in_data y v : valid y -> v ∈ data (larr y) -> exists ls, cell y ls = Some v.
Proof. intros Hv Hin. apply elem_of_list_lookup in Hin as [i Hi]. destruct (Forall2_lookup_r _ _ _ _ _ (data_grid y Hv) Hi) as (ls & _ & H). eauto. Qed.
Lemma red_dtype_again op dt dt' : red_dtype op dt = Ok dt' -> exists dt'', red_dtype op dt' = Ok dt''.
Proof. destruct op, dt; intros [= <-]; simpl; eauto. Qed.
(** What a reduction along an axis gives. *)
Lemma reduce_run op y a z : valid y -> nonempty y -> larry_reduce op y (Some a) = Ok (OLar z) ->
  exists dt dt' ls n, red_dtype op (ldtype y) = Ok dt /\ red_dtype op dt = Ok dt' /\ ldtype z = dt /\ data (larr z) = red_lane op (ldtype y) <$> ls /\
    concat ls ≡ₚ data (larr y) /\ Forall (fun l => length l = n) ls /\ ls <> [] /\ 0 < n /\ lsize z <> 0 /\ lsize y <> 0.
Proof.
  intros Hv Hne H. pose proof (reduce_valid op y (Some a) z Hv H) as Hvz. pose proof (proj2 (ReduceFacts.size_nonempty y Hv) Hne) as Hsz. unfold larry_reduce in H.
  rewrite decide_False in H by done. apply bind_ok in H as (dt & Hdt & H). apply bind_ok in H as (ax & Hax & H). apply of_opt_ok in Hax.
  apply bind_ok in H as (b & Hb & H). apply of_opt_ok in Hb. unfold as_out in H. change (nd_shape (Nda dt b)) with (shape b) in H. destruct (shape b) as [|m sh] eqn:Esh; [by apply bind_ok in H as (? & _ & ?)|].
  injection H as <-. pose proof (proj1 (proj1 Hv)) as Hwf. destruct (reduce_lanes _ _ _ _ Hwf Hb) as (ls & n & Hd & Hp & Hn & HF).
  destruct (red_dtype_again _ _ _ Hdt) as [dt' Hdt']. exists dt, dt', ls, n. assert (0 < n) as Hn0.
  { pose proof (valid_shape y Hv) as Hsh. change (lshape y !! ax = Some n) in Hn. rewrite <-Hsh, list_lookup_fmap in Hn. apply fmap_Some in Hn as (l & Hl & ->).
    pose proof (Forall_lookup_1 _ _ _ _ Hne Hl) as Hl0. simpl in Hl0. destruct l; [done|]. simpl. lia. }
  assert (ls <> []) as Hls.
  { intros ->. simpl in Hp. apply Permutation_nil in Hp. by apply (nonempty_data y Hv Hne). }
  split_and!; try done. intros Hz. assert (Hdz : length (data b) = 0).
  { unfold lsize, nd_size in Hz. rewrite <-Hz. destruct Hvz as [[Hw _] _]. unfold larr in Hw. simpl in Hw. exact Hw. }
  rewrite Hd, fmap_length in Hdz. by destruct ls.
Qed.
Lemma summary_again op y a z : valid y -> nonempty y -> op ∈ [RSum; RMax; RMin; RAny; RAll] -> (op = RSum -> no_clash y) ->
  larry_reduce op y (Some a) = Ok (OLar z) -> larry_reduce op z None = larry_reduce op y None.
Proof.
  intros Hv Hne Hop Hc H. destruct (reduce_run op y a z Hv Hne H) as (dt & dt' & ls & n & Hdt & Hdt' & Hdz & Hd & Hp & HF & Hls & Hn & Hsz & Hsy).
  unfold larry_reduce. rewrite !decide_False by done. rewrite Hdt, Hdz, Hdt'. cbn [mbind res_bind]. do 2 f_equal.
  rewrite Hd. etrans; [apply red_concat; [done|done| |done| |]|by apply red_lane_free].
  - unfold typed. rewrite Hp. apply Hv.
  - eapply Forall_impl; [exact HF|]. intros l Hl. destruct l; [simpl in Hl; lia|done].
  - intros ->. rewrite !Hp. intros [H1 H2]. apply (Hc eq_refl). apply in_data in H1 as [l1 H1]; [|done]. apply in_data in H2 as [l2 H2]; [|done]. eauto.
Qed.

(** * Means *)
Lemma Qc_sum_app l l' : Qc_sum (l ++ l') = (Qc_sum l + Qc_sum l')%Qc.
Proof. unfold Qc_sum. induction l as [|x l IH]; simpl; [|rewrite IH; ring]. symmetry. apply Qcplus_0_l. Qed.
Lemma Qc_sum_concat ls : Qc_sum (Qc_sum <$> ls) = Qc_sum (concat ls).
Proof. induction ls as [|l ls IH]; [done|]. cbn [concat]. rewrite Qc_sum_app, <-IH. done. Qed.
Lemma num_mean_fin qs : qs <> [] -> num_mean (Fin <$> qs) = Fin (Qc_sum qs / Qc_of_Z (Z.of_nat (length qs)))%Qc.
Proof. intros H. rewrite <-(mean_fin qs H). unfold num_mean, mean_of. rewrite fold_total, num_add_0_l. by rewrite !fmap_length. Qed.
Lemma nums_fin l : (forall v, v ∈ l -> exists q, to_num v = Some (Fin q)) -> exists qs, lane_nums l = Fin <$> qs /\ length qs = length l.
Proof.
  induction l as [|v l IH]; intros H; [by exists []|]. destruct IH as (qs & E & Hlen); [intros w Hw; apply H; by constructor|].
  destruct (H v) as [q Hq]; [constructor|]. exists (q :: qs). unfold lane_nums in *. cbn [omap list_omap]. rewrite Hq, filter_cons, decide_True by done. rewrite E.
  split; [done|]. simpl. by rewrite Hlen.
Qed.
Lemma Qc_of_Z_mul a b : Qc_of_Z (a * b) = (Qc_of_Z a * Qc_of_Z b)%Qc.
Proof. apply Qc_is_canon. unfold Qc_of_Z. simpl. rewrite !Qred_correct. unfold Qeq. simpl. lia. Qed.
Lemma mean_concat ls n dt : 0 < n -> ls <> [] -> Forall (fun l => length l = n) ls -> (forall v, v ∈ concat ls -> exists q, to_num v = Some (Fin q)) ->
  red_lane RMean DFloat (red_lane RMean dt <$> ls) = red_lane RMean dt (concat ls).
Proof.
  intros Hn Hls HF Hfin. assert (Hred : forall l, red_lane RMean dt l = VFloat (float_red RMean (lane_nums l))) by (intros l; by destruct dt).
  assert (Hq : exists qss, lane_nums <$> ls = (fun qs => Fin <$> qs) <$> qss /\ Forall (fun qs => length qs = n) qss /\ length qss = length ls).
  { clear Hls Hred. induction ls as [|l ls IH]; [by exists []|]. inversion HF as [|? ? Hl HF']; subst.
    destruct IH as (qss & E & HFq & Hlq); [done|intros v Hv; apply Hfin; simpl; apply elem_of_app; by right|].
    destruct (nums_fin l) as (qs & Eq & Hlen); [intros v Hv; apply Hfin; simpl; apply elem_of_app; by left|].
    exists (qs :: qss). csimpl. rewrite Eq, E, Hlq. split_and!; try done. by constructor. }
  destruct Hq as (qss & E & HFq & Hlq). rewrite Hred, lane_nums_concat, E.
  rewrite (list_fmap_ext (red_lane RMean dt) (fun l => VFloat (float_red RMean (lane_nums l))) ls) by done.
  change (red_lane RMean DFloat) with (fun l => VFloat (float_red RMean (lane_nums l))). cbv beta. rewrite lane_nums_floats.
  rewrite (list_fmap_compose lane_nums (float_red RMean)), E, <-list_fmap_compose.
  assert (Hqss : qss <> []) by (intros ->; by destruct ls).
  set (c := (/ Qc_of_Z (Z.of_nat n))%Qc).
  assert (Em : (float_red RMean ∘ (fun qs => Fin <$> qs)) <$> qss = Fin <$> ((fun qs => (Qc_sum qs * c)%Qc) <$> qss)).
  { rewrite <-list_fmap_compose. apply list_fmap_ext. intros i qs Hi. simpl. pose proof (Forall_lookup_1 _ _ _ _ HFq Hi) as Hl. simpl in Hl.
    assert (qs <> []) as Hne by (intros ->; simpl in Hl; lia). unfold float_red. destruct (Fin <$> qs) as [|x xs] eqn:Ex; [by destruct qs|]. rewrite <-Ex.
    rewrite num_mean_fin by done. by rewrite Hl. }
  rewrite Em. assert (Ef : filter (fun n => n <> NaN) (Fin <$> ((fun qs => (Qc_sum qs * c)%Qc) <$> qss)) = Fin <$> ((fun qs => (Qc_sum qs * c)%Qc) <$> qss)).
  { generalize ((fun qs => (Qc_sum qs * c)%Qc) <$> qss). intros l. induction l as [|x l IH]; [done|]. csimpl. rewrite filter_cons, decide_True by done. by rewrite IH. }
  rewrite Ef. assert (Ec : concat ((fun qs : list Qc => Fin <$> qs) <$> qss) = Fin <$> concat qss).
  { clear. induction qss as [|qs qss IH]; [done|]. csimpl. by rewrite fmap_app, IH. }
  rewrite Ec. assert (Hlc : length (concat qss) = n * length qss).
  { clear -HFq. induction HFq as [|qs qss Hl _ IH]; [simpl; lia|]. simpl. rewrite app_length, IH, Hl. lia. }
  assert (Hm : forall qs, qs <> [] -> float_red RMean (Fin <$> qs) = Fin (Qc_sum qs / Qc_of_Z (Z.of_nat (length qs)))%Qc).
  { intros qs Hqs. unfold float_red. destruct (Fin <$> qs) as [|x xs] eqn:Ex; [by destruct qs|]. rewrite <-Ex. by apply num_mean_fin. }
  rewrite !Hm; [| |by destruct qss].
  - f_equal. f_equal. rewrite fmap_length. rewrite (list_fmap_compose Qc_sum (fun q => (q * c)%Qc)), Qc_sum_scale, Qc_sum_concat, Hlc.
    rewrite Nat2Z.inj_mul. unfold c.
    assert (Qc_of_Z (Z.of_nat n * Z.of_nat (length qss)) = (Qc_of_Z (Z.of_nat n) * Qc_of_Z (Z.of_nat (length qss)))%Qc) as -> by apply Qc_of_Z_mul.
    field. split; apply Qc_of_Z_neq0; [|lia]. destruct qss; [done|]. simpl. lia.
  - intros E0. rewrite E0 in Hlc. simpl in Hlc. destruct qss; [done|]. simpl in Hlc. lia.
Qed.
Lemma mean_again y a z : valid y -> nonempty y -> finite_larry y -> larry_reduce RMean y (Some a) = Ok (OLar z) -> larry_reduce RMean z None = larry_reduce RMean y None.
Proof.
  intros Hv Hne Hfin H. destruct (reduce_run RMean y a z Hv Hne H) as (dt & dt' & ls & n & Hdt & Hdt' & Hdz & Hd & Hp & HF & Hls & Hn & Hsz & Hsy).
  unfold larry_reduce. rewrite !decide_False by done. rewrite Hdt, Hdz, Hdt'. cbn [mbind res_bind]. do 2 f_equal.
  assert (dt = DFloat) as -> by (destruct (ldtype y); simpl in Hdt; congruence). rewrite Hd.
  etrans; [eapply mean_concat; try done|by apply red_lane_free]. intros v. rewrite Hp. intros [lsv Hc]%in_data; [|done]. by eapply Hfin.
Qed.
