(** Proofs about sortby and argsort. *)
From Verif Require Import Create NumFacts AlignFacts StackFacts IndexGet.
From stdpp Require Import sorting.

Lemma is_nan_iff n : is_nan n = true <-> n = NaN.
Proof. by destruct n. Qed.
Lemma num_not_lt_trans a b c : a <> NaN -> b <> NaN -> c <> NaN -> num_ltb b a = false -> num_ltb c b = false -> num_ltb c a = false.
Proof.
  intros Ha Hb Hc H1 H2. apply not_true_iff_false in H1, H2. rewrite num_ltb_lt in H1, H2. apply not_true_iff_false. rewrite num_ltb_lt. intros H3.
  destruct (num_trichotomy a b Ha Hb) as [H|[->|H]]; [|done|done].
  apply H2. by eapply num_lt_trans.
Qed.
(** The order within one rank. *)
Lemma val_order_cases v w :
  val_order v w <->
  val_rank v < val_rank w \/
  val_rank v = val_rank w /\
  ((exists s t, v = VStr s /\ w = VStr t /\ lab_le (LStr s) (LStr t)) \/
   (exists n m, to_num v = Some n /\ to_num w = Some m /\ num_ltb m n = false) \/
   2 < val_rank v).
Proof.
  unfold val_order. apply Morphisms_Prop.or_iff_morphism; [done|]. split.
  - intros [H1 H2]. split; [done|]. destruct v, w; simpl in *; try (exfalso; clear H2; revert H1; repeat case_match; lia);
      try (right; left; eexists _, _; split_and!; [done..|exact H2]); try (left; eexists _, _; split_and!; [done..|exact H2]); right; right; lia.
  - intros [H1 H2]. split; [done|]. destruct H2 as [(s & t & -> & -> & H2)|[(n & m & Hn & Hm & H2)|H2]]; [done| |].
    + destruct v, w; try done; simpl in *; by simplify_eq.
    + destruct v, w; simpl in *; try done; try lia; revert H1 H2; repeat case_match; lia.
Qed.
Lemma num_ltb_total n m : num_ltb m n = false \/ num_ltb n m = false.
Proof.
  destruct (num_ltb m n) eqn:E; [right|by left]. apply not_true_iff_false. rewrite num_ltb_lt in *. intros E'.
  eapply num_lt_irrefl, num_lt_trans; eauto.
Qed.
Lemma rank_num v n : to_num v = Some n -> val_rank v = if is_nan n then 1 else 0.
Proof. destruct v; simpl; intros [= <-]; try done. by destruct n0. Qed.
Lemma val_kind v : (exists s, v = VStr s) \/ (exists n, to_num v = Some n) \/ 2 < val_rank v.
Proof. destruct v; simpl; eauto. Qed.
Global Instance val_order_total : Total val_order.
Proof.
  intros v w. rewrite !val_order_cases. destruct (Nat.lt_trichotomy (val_rank v) (val_rank w)) as [H|[H|H]]; [auto| |auto].
  destruct (val_kind v) as [[s ->]|[[n Hn]|H3]], (val_kind w) as [[t ->]|[[m Hm]|H4]]; simpl in *; try lia.
  - destruct (total lab_le (LStr s) (LStr t)); [left|right]; right; (split; [done|]); left; eauto.
  - rewrite (rank_num _ _ Hm) in H. destruct (is_nan m); lia.
  - rewrite (rank_num _ _ Hn) in H. destruct (is_nan n); lia.
  - destruct (num_ltb_total n m); [left|right]; right; (split; [done|]); right; left; eauto 10.
Qed.
Global Instance val_order_trans : Transitive val_order.
Proof.
  intros u v w. rewrite !val_order_cases. intros [H1|[E1 H1]] [H2|[E2 H2]]; [left; lia|left; lia|left; lia|]. right. split; [lia|].
  destruct H1 as [(s & t & -> & -> & H1)|[(n & m & Hn & Hm & H1)|H1]].
  - destruct H2 as [(s' & t' & [= <-] & -> & H2)|[(n & m & Hn & Hm & H2)|H2]]; [|done|simpl in H2; lia].
    left. eexists _, _. split_and!; [done..|]. by etrans.
  - destruct H2 as [(s' & t' & -> & -> & H2)|[(n' & m' & Hn' & Hm' & H2)|H2]]; [done| |].
    + right; left. exists n, m'. split_and!; [done..|]. simplify_eq.
      rewrite (rank_num _ _ Hn), (rank_num _ _ Hm) in E1. rewrite (rank_num _ _ Hm), (rank_num _ _ Hm') in E2.
      destruct (is_nan n) eqn:Ea.
      { apply is_nan_iff in Ea as ->. destruct m'; done. }
      destruct (is_nan m) eqn:Eb; [done|]. destruct (is_nan m') eqn:Ec; [done|].
      apply (num_not_lt_trans n m m'); try done; by intros ->.
    + rewrite (rank_num _ _ Hm) in H2. destruct (is_nan m); lia.
  - right; right. done.
Qed.

Lemma typed_num dt v : dt <> DObj -> has_dtype dt v = true -> (dt = DStr /\ exists s, v = VStr s) \/ dt <> DStr /\ exists n, to_num v = Some n.
Proof. destruct dt, v; try done; simpl; intros _ _; eauto. Qed.
Lemma val_order_le dt v w : dt <> DObj -> has_dtype dt v = true -> has_dtype dt w = true -> val_order v w -> val_le v w.
Proof.
  intros Hd Hv Hw. rewrite val_order_cases.
  destruct (typed_num dt v Hd Hv) as [[-> [s ->]]|[Hs [n Hn]]], (typed_num _ w Hd Hw) as [[? [t ->]]|[Hs' [m Hm]]]; try done.
  - simpl. intros [?|[_ [(s' & t' & [= <-] & [= <-] & Hle)|[(? & ? & ? & _)|?]]]]; [lia|done|done|lia].
  - intros H. assert (Hgoal : exists n m, to_num v = Some n /\ to_num w = Some m /\ (m = NaN \/ num_le n m)).
    { exists n, m. split_and!; [done..|]. rewrite (rank_num _ _ Hn), (rank_num _ _ Hm) in H.
      destruct (is_nan m) eqn:Em; [left; by apply is_nan_iff|]. destruct (is_nan n) eqn:En; [exfalso; destruct H; lia|].
      right. destruct H as [?|[_ [(s & t & -> & _)|[(n' & m' & Hn' & Hm' & H)|?]]]]; [lia|done| |lia].
      assert (n' = n) as -> by congruence. assert (m' = m) as -> by congruence. destruct (num_le_total n m) as [?|Hlt]; [by intros ->|by intros ->|done|].
      apply num_ltb_lt in Hlt. congruence. }
    unfold val_le. destruct v, w; try done.
Qed.

Lemma zip_seq_elem {A} (vs : list A) k v i : (v, i) ∈ zip vs (seq k (length vs)) -> k <= i /\ vs !! (i - k) = Some v.
Proof.
  revert k. induction vs as [|u vs IH]; intros k; simpl; [by intros ?%elem_of_nil|].
  rewrite elem_of_cons. intros [[= -> ->]|H].
  - split; [done|]. by rewrite Nat.sub_diag.
  - apply IH in H as [H1 H2]. split; [lia|]. replace (i - k) with (S (i - S k)) by lia. done.
Qed.
Lemma np_argsort_good : good_argsort np_argsort.
Proof.
  intros dt vs Hd Hty. unfold argsorts, np_argsort. set (ps := merge_sort _ _).
  assert (Hperm : ps ≡ₚ zip vs (seq 0 (length vs))) by apply merge_sort_Permutation.
  assert (Hsort : StronglySorted pair_order ps).
  { assert (Transitive pair_order) by (intros p q r; apply val_order_trans). assert (Total pair_order) by (intros p q; apply val_order_total).
    apply (StronglySorted_merge_sort pair_order). }
  split.
  - change (ps.*2 ≡ₚ seq 0 (length vs)). rewrite Hperm. rewrite snd_zip; [done|]. by rewrite seq_length.
  - exists ps.*1. split.
    + apply mapM_Some_lookup. change (map snd ps) with (ps.*2). rewrite !fmap_length. split; [done|]. intros i x Hx.
      change (ps.*2 !! i = Some x) in Hx. rewrite list_lookup_fmap in Hx. rewrite list_lookup_fmap. destruct (ps !! i) as [[v k]|] eqn:E; [|done]. simpl in *. injection Hx as <-.
      apply elem_of_list_lookup_2 in E. rewrite Hperm in E. apply zip_seq_elem in E as [_ E]. by rewrite Nat.sub_0_r in E.
    + assert (Hp : Forall (fun p => has_dtype dt p.1 = true) ps).
      { rewrite Hperm. apply Forall_forall. intros [v k] Hk. apply zip_seq_elem in Hk as [_ Hk].
        rewrite Forall_forall in Hty. apply Hty. by eapply elem_of_list_lookup_2. }
      clear Hperm. clearbody ps. induction Hsort as [|p ps Hs IH Hx]; csimpl; [constructor|]. apply Forall_cons in Hp as [Hp0 Hp].
      constructor; [by apply IH|]. apply Forall_fmap. rewrite Forall_forall in Hx, Hp |- *. intros q Hq.
      eapply val_order_le; [done..|by apply Hp|by apply Hx].
Qed.

Lemma get_row_spec y (ax i : nat) l other a :
  valid y -> lndim y = 2 -> llabel y !! ax = Some l -> llabel y !! (1 - ax) = Some other -> ax < 2 -> l !! i = Some a ->
  exists vs, get_row (larr y) ax i = Some vs /\ Forall (fun v => has_dtype (ldtype y) v = true) vs /\
  Forall2 (fun o v => cell y (if decide (ax = 0) then [a; o] else [o; a]) = Some v) other vs.
Proof.
  intros Hv H2 Hl Ho Hax Hi. unfold get_row.
  assert (Hn : shape (larr y) !! (1 - ax) = Some (length other)) by (apply valid_axis; eauto). rewrite Hn. cbn [mbind option_bind].
  destruct (two_labels y Hv H2) as (l1 & l2 & HL).
  assert (Hj : forall j o, other !! j = Some o -> exists v, aget (larr y) (if decide (ax = 0) then [i; j] else [j; i]) = Some v /\
    cell y (if decide (ax = 0) then [a; o] else [o; a]) = Some v).
  { intros j o Hjo. apply valid_cell_at; [done|]. rewrite HL in *. case_decide as E.
    - subst ax. simpl in Hl, Ho. simplify_eq. by apply labels2.
    - assert (ax = 1) as -> by lia. simpl in Hl, Ho. simplify_eq. by apply labels2. }
  destruct (mapM _ (seq 0 (length other))) as [vs|] eqn:E.
  - exists vs. split; [done|]. apply mapM_Some_lookup in E as [Hlen E]. rewrite seq_length in Hlen.
    assert (Hf : Forall2 (fun o v => cell y (if decide (ax = 0) then [a; o] else [o; a]) = Some v) other vs).
    { apply Forall2_same_length_lookup_2; [done|]. intros j o v Hjo Hjv. destruct (Hj j o Hjo) as (v' & Hg & Hc).
      assert (Hs : seq 0 (length other) !! j = Some j) by (apply lookup_seq; split; [done|]; by apply lookup_lt_Some in Hjo).
      specialize (E j j Hs). congruence. }
    split; [|done]. apply Forall_lookup. intros j v Hjv. destruct (Forall2_lookup_r _ _ _ _ _ Hf Hjv) as (o & _ & Hc).
    by eapply valid_cell_typed.
  - exfalso. apply eq_None_not_Some in E. apply E. apply mapM_is_Some. apply Forall_forall. intros j Hin. apply elem_of_seq in Hin.
    destruct (lookup_lt_is_Some_2 other j) as [o Hjo]; [lia|]. destruct (Hj j o Hjo) as (v & Hg & _). eauto.
Qed.


Lemma perm_nodup_lookup {A} (l : list A) idx l' :
  idx ≡ₚ seq 0 (length l) -> mapM (l !!.) idx = Some l' -> l' ≡ₚ l.
Proof.
  intros Hp Hm.
  assert (Hseq : mapM (l !!.) (seq 0 (length l)) = Some l).
  { apply mapM_Some_lookup. rewrite seq_length. split; [done|]. intros i x [-> _]%lookup_seq. done. }
  assert (Hgen : forall i1 i2 l1 l2, i1 ≡ₚ i2 -> mapM (l !!.) i1 = Some l1 -> mapM (l !!.) i2 = Some l2 -> l1 ≡ₚ l2).
  { intros i1 i2 l1 l2 H H1 H2. apply mapM_Some in H1, H2. revert l1 l2 H1 H2. induction H as [|x i1 i2 H IH|x x' i1|i1 i2 i3 H12 IH1 H23 IH2]; intros l1 l2 H1 H2.
    - inversion H1; inversion H2; done.
    - inversion H1; inversion H2; subst. simplify_eq. constructor. by apply IH.
    - inversion H1 as [|? ? ? ? ? H1']; inversion H2 as [|? ? ? ? ? H2']; subst. inversion H1'; inversion H2'; subst. simplify_eq.
      match goal with H : Forall2 _ ?k ?a, H' : Forall2 _ ?k ?b |- _ => assert (a = b) as -> by (apply mapM_Some in H, H'; congruence) end.
      constructor.
    - assert (Hex : exists l3, Forall2 (fun x y => l !! x = Some y) i2 l3).
      { clear -H12 H1. revert l1 H1. assert (Hf : forall l1, Forall2 (fun x y => l !! x = Some y) i1 l1 -> Forall (fun x => is_Some (l !! x)) i1).
        { intros l1 H. clear H12. induction H; [constructor|]. constructor; [by eexists|done]. }
        intros l1 H1. apply Hf in H1. rewrite H12 in H1. clear -H1. induction H1 as [|x i2 [y Hy] _ [l3 IH]]; [by exists []|]. exists (y :: l3). by constructor. }
      destruct Hex as [l3 H3]. transitivity l3; [by apply IH1|by apply IH2]. }
  by eapply Hgen.
Qed.

Lemma mapM_rev {A B} (f : A -> option B) l k : mapM f l = Some k -> mapM f (reverse l) = Some (reverse k).
Proof. intros H. apply mapM_Some in H. apply mapM_Some. by apply Forall2_reverse. Qed.

Lemma sortby_core argsort y element (ax : nat) l other i (rev : bool) :
  good_argsort argsort -> valid y -> lndim y = 2 -> ax < 2 -> llabel y !! ax = Some l -> llabel y !! (1 - ax) = Some other ->
  l !! i = Some element -> ldtype y <> DObj ->
  exists vs z, get_row (larr y) ax i = Some vs /\
  larry_getitem y (XTuple (if decide (Z.of_nat ax = 0)%Z
     then [ISlice slice_all; IList (map Z.of_nat (if rev then reverse (argsort vs) else argsort vs))]
     else [IList (map Z.of_nat (if rev then reverse (argsort vs) else argsort vs)); ISlice slice_all])) = Ok (GLar z) /\
  sorted_by y element ax rev z.
Proof.
  intros Hgood Hv H2 Hax Hl Ho Hi Hd.
  destruct (get_row_spec y ax i l other element Hv H2 Hl Ho Hax Hi) as (vs & Hvs & Hty & Hrow).
  exists vs. destruct (Hgood _ _ Hd Hty) as [Hperm (ws & Hws & Hsort)].
  set (idx := if rev then reverse (argsort vs) else argsort vs).
  assert (Hlen : length vs = length other) by (symmetry; by eapply Forall2_length).
  assert (Hperm' : idx ≡ₚ seq 0 (length other)).
  { unfold idx. destruct rev; rewrite ?reverse_Permutation, Hperm, Hlen; done. }
  assert (Hws' : exists ws', mapM (vs !!.) idx = Some ws' /\ StronglySorted (fun v w => if rev then val_le w v else val_le v w) ws').
  { unfold idx. destruct rev; [|by exists ws]. exists (reverse ws). split; [by apply mapM_rev|]. by apply StronglySorted_reverse. }
  clear Hws Hsort ws. destruct Hws' as (ws & Hws & Hsort).
  assert (Hidx : Forall (fun k => k < length other) idx).
  { apply Forall_forall. intros k Hk. rewrite Hperm' in Hk. apply elem_of_seq in Hk. lia. }
  assert (Hoth : exists other', mapM (other !!.) idx = Some other').
  { apply mapM_is_Some. eapply Forall_impl; [exact Hidx|]. intros k Hk. by apply lookup_lt_is_Some_2. }
  destruct Hoth as [other' Hoth]. pose proof (perm_nodup_lookup _ _ _ Hperm' Hoth) as Hpo.
  assert (Hsel : Forall2 (fun z x => py_get other z = Some x) (map Z.of_nat idx) other').
  { apply mapM_Some in Hoth. clear -Hoth. induction Hoth as [|k x idx other' Hk Hoth IH]; simpl; [constructor|].
    constructor; [|done]. apply py_get_mod. exists k. split; [|done]. apply py_index_nat. by apply lookup_lt_Some in Hk. }
  destruct (two_labels y Hv H2) as (l1 & l2 & HL).
  pose proof (valid_nodup y Hv) as Hnd.
  assert (Hno : NoDup other') by (rewrite Hpo; rewrite Forall_lookup in Hnd; by eapply Hnd).
  assert (Hnl : NoDup l) by (rewrite Forall_lookup in Hnd; by eapply Hnd).
  set (ss := if decide (ax = 0) then [Among l; Among other'] else [Among other'; Among l]).
  set (items := if decide (Z.of_nat ax = 0)%Z then [ISlice slice_all; IList (map Z.of_nat idx)] else [IList (map Z.of_nat idx); ISlice slice_all]).
  assert (Hsl : forall l : list lab, selects l (ISlice slice_all) (Among l)) by (intros; apply py_slice_all).
  assert (Hss : selects_all (llabel y) items ss /\ Forall NoDup (sel_labels ss) /\ sel_labels ss = (if decide (ax = 0) then [l; other'] else [other'; l])).
  { unfold items, ss. destruct (decide (ax = 0)) as [->|Hne].
    - rewrite decide_True by done. rewrite HL in Hl, Ho |- *. simpl in Hl, Ho. simplify_eq. split_and!; [|by repeat constructor|done].
      split; [done|]. repeat constructor; [apply Hsl|exact Hsel].
    - assert (ax = 1) as -> by lia. rewrite decide_False by done. rewrite HL in Hl, Ho |- *. simpl in Hl, Ho. simplify_eq. split_and!; [|by repeat constructor|done].
      split; [done|]. repeat constructor; [exact Hsel|apply Hsl]. }
  destruct Hss as (Hss & Hndl & Hsls).
  destruct (getitem_tuple_complete y items ss) as (g & Hg & Hp); try done.
  - unfold items. destruct (decide (Z.of_nat ax = 0%Z)); by repeat constructor.
  - left. unfold items. intros a b c ia ib ic Habc Ha Hb Hc. exfalso. destruct (decide (Z.of_nat ax = 0%Z)); destruct c as [|[|[|]]]; try done; lia.
  - unfold items. intros a b ia ib Ha Hb Hla Hlb. destruct (decide (Z.of_nat ax = 0%Z)); destruct a as [|[|[|]]], b as [|[|[|]]]; try done; simpl in *; simplify_eq; done.
  - unfold items. intros Hf. exfalso. destruct (decide (Z.of_nat ax = 0%Z)); by inversion Hf.
  - destruct g as [z|v|a].
    + exists z. split_and!; [done|done|]. destruct Hp as (Hvz & Hdz & Hlz & Hcz). rewrite Hsls in Hlz.
      assert (Hcell : forall ls, cell z ls = cell y ls).
      { intros ls. destruct (decide (in_grid (llabel z) ls)) as [Hgr|Hgr].
        - destruct (Hcz ls Hgr) as (full & Hfull & ->). f_equal.
          assert (Hl2 : length ls = 2) by (pose proof (Forall2_length _ _ _ Hgr) as E; rewrite E, Hlz; by case_decide).
          destruct ls as [|a [|b [|]]]; try done. unfold ss in Hfull. destruct (decide (ax = 0)); simpl in Hfull; congruence.
        - transitivity (None : option val); [|symmetry]; apply cell_None_grid; try done.
          intros Hgy. apply Hgr. rewrite Hlz. rewrite HL in Hgy, Hl, Ho.
          destruct (decide (ax = 0)) as [->|Hne].
          + simpl in Hl, Ho. simplify_eq. inversion Hgy as [|? ? ? ? Ha Hgy']; subst. inversion Hgy' as [|? ? ? ? Hb Hgy'']; subst. inversion Hgy''; subst.
            constructor; [done|]. constructor; [|constructor]. by rewrite Hpo.
          + assert (ax = 1) as -> by lia. simpl in Hl, Ho. simplify_eq. inversion Hgy as [|? ? ? ? Ha Hgy']; subst. inversion Hgy' as [|? ? ? ? Hb Hgy'']; subst. inversion Hgy''; subst.
            constructor; [by rewrite Hpo|]. constructor; [done|constructor]. }
      exists l, other, other'. split_and!; try done.
      * by eapply elem_of_list_lookup_2.
      * rewrite Hlz. by case_decide.
      * rewrite Hlz. case_decide as E; [by subst|]. assert (ax = 1) as -> by lia. done.
      * rewrite Hlz. case_decide as E; [by subst|]. assert (ax = 1) as -> by lia. done.
      * exists ws. split; [|done]. apply mapM_Some in Hoth, Hws. clear -Hoth Hws Hrow Hcell. revert ws Hws.
        induction Hoth as [|k x idx other' Hk Hoth IH]; intros ws Hws; inversion Hws as [|? w ? ws' Hw Hws']; subst; constructor; [|by apply IH].
        rewrite Hcell. exact (Forall2_lookup_lr _ _ _ _ _ _ Hrow Hk Hw).
    + exfalso. destruct Hp as [Hp _]. rewrite Hsls in Hp. by destruct (decide (ax = 0)).
    + done.
Qed.

Lemma sortby_empty y (ax : nat) l other element (rev : bool) :
  valid y -> lndim y = 2 -> ax < 2 -> llabel y !! ax = Some l -> llabel y !! (1 - ax) = Some other -> lsize y = 0 -> element ∈ l ->
  sorted_by y element ax rev y.
Proof.
  intros Hv H2 Hax Hl Ho Hsz Hin. destruct (two_labels y Hv H2) as (l1 & l2 & HL).
  assert (other = []) as ->.
  { unfold lsize, asize in Hsz. pose proof (valid_shape y Hv) as Hsh. rewrite HL in Hsh. simpl in Hsh.
    change (shape (larr y)) with (lshape y) in Hsz. rewrite <-Hsh in Hsz. simpl in Hsz.
    apply elem_of_list_lookup in Hin as [i Hi%lookup_lt_Some]. rewrite HL in Hl, Ho.
    destruct (decide (ax = 0)) as [->|Hne]; [|assert (ax = 1) as -> by lia]; simpl in Hl, Ho; simplify_eq; destruct other; simpl in *; try done; nia. }
  exists l, [], []. split_and!; try done.
  - by rewrite HL.
  - exists []. split; constructor.
Qed.

Lemma axis_01 y axis ax : valid y -> lndim y = 2 -> axis_is y axis ax <-> ax < 2 /\ (axis = Z.of_nat ax \/ axis = Z.of_nat ax - 2)%Z.
Proof. intros Hv H2. unfold axis_is. rewrite (valid_ndim y Hv), H2. done. Qed.

Lemma sortby_eq argsort y element axis ax l (rev : bool) :
  good_argsort argsort -> valid y -> lndim y = 2 -> axis_is y axis ax -> llabel y !! ax = Some l ->
  (element ∈ l -> lsize y = 0 \/ ldtype y <> DObj -> exists z, sortby argsort y element axis rev = Ok z /\ sorted_by y element ax rev z) /\
  (element ∉ l -> sortby argsort y element axis rev = Err IndexError) /\
  (element ∈ l -> lsize y <> 0 -> ldtype y = DObj -> sortby argsort y element axis rev = Err TypeError).
Proof.
  intros Hgood Hv H2 Hax Hl. pose proof Hax as Hpy. apply py_axis_is in Hpy.
  apply (axis_01 y axis ax Hv H2) in Hax as [Hlt Hax].
  unfold sortby. rewrite decide_False by lia. rewrite Hpy. cbn [of_opt mbind res_bind]. rewrite (proj2 (axis_label_ok y ax l) Hl). cbn [of_opt mbind res_bind].
  destruct (lookup_lt_is_Some_2 (llabel y) (1 - ax)) as [other Ho]; [rewrite (valid_ndim y Hv); lia|].
  set (axis' := if decide (axis < 0)%Z then (axis + Z.of_nat (lndim y))%Z else axis).
  assert (Haxis : axis' = Z.of_nat ax) by (unfold axis'; rewrite H2; case_decide; lia).
  assert (Hlab : forall i, labelindex y element (Some axis') true = Ok i <-> l !! i = Some element).
  { intros i. rewrite (labelindex_exact y element axis' i Hv). rewrite Haxis, py_axis_nat by (rewrite (valid_ndim y Hv); lia).
    split; [intros (? & ? & [= <-] & ? & ?); congruence|]. intros. eauto. }
  assert (Hnolab : element ∉ l -> labelindex y element (Some axis') true = Err IndexError).
  { intros Hno. destruct (labelindex y element (Some axis') true) as [i|e] eqn:E.
    - pose proof (proj1 (Hlab i) eq_refl) as Hi. exfalso. apply Hno. by eapply elem_of_list_lookup_2.
    - by apply labelindex_exact_err in E as ->. }
  split_and!.
  - intros Hin Hdt. destruct (decide (lsize y = 0)) as [Hz|Hz]; cbn [of_opt mbind res_bind].
    + rewrite bool_decide_true by done. eexists. split; [done|]. by eapply sortby_empty.
    + destruct Hdt as [?|Hdt]; [done|]. rewrite decide_False by lia.
      apply elem_of_list_lookup in Hin as [i Hi]. rewrite (proj2 (Hlab i) Hi). cbn [of_opt mbind res_bind]. rewrite Haxis, Nat2Z.id.
      destruct (sortby_core argsort y element ax l other i rev) as (vs & z & Hvs & Hg & Hs); try done.
      rewrite Hvs. cbn [of_opt mbind res_bind]. rewrite decide_False by done. rewrite Hg. eauto.
  - intros Hno. destruct (decide (lsize y = 0)) as [Hz|Hz]; cbn [of_opt mbind res_bind]; [rewrite bool_decide_false by done|];
      rewrite decide_False by lia; rewrite Hnolab by done; done.
  - intros Hin Hz Hdt. destruct (decide (lsize y = 0)); [done|]. cbn [of_opt mbind res_bind]. rewrite decide_False by lia.
    apply elem_of_list_lookup in Hin as [i Hi]. rewrite (proj2 (Hlab i) Hi). cbn [of_opt mbind res_bind]. rewrite Haxis, Nat2Z.id.
    destruct (get_row_spec y ax i l other element) as (vs & Hvs & _); try done. rewrite Hvs. simpl. by rewrite decide_True.
Qed.

Theorem sortby_spec argsort y element axis (rev : bool) z :
  good_argsort argsort -> valid y -> sortby argsort y element axis rev = Ok z ->
  exists ax, axis_is y axis ax /\ sorted_by y element ax rev z.
Proof.
  intros Hgood Hv Hz. destruct (decide (lndim y = 2)) as [H2|H2].
  2: { unfold sortby in Hz. by rewrite decide_True in Hz. }
  destruct (decide (axis = 0 \/ axis = -2)%Z) as [Ha|Ha]; [|destruct (decide (axis = 1 \/ axis = -1)%Z) as [Hb|Hb]].
  - assert (Hax : axis_is y axis 0) by (apply axis_01; [done..|]; split; [lia|]; destruct Ha; [left|right]; lia).
    destruct (lookup_lt_is_Some_2 (llabel y) 0) as [l Hl]; [rewrite (valid_ndim y Hv); lia|].
    destruct (sortby_eq argsort y element axis 0 l rev Hgood Hv H2 Hax Hl) as (H & Hn & Ht).
    exists 0. split; [done|]. destruct (decide (element ∈ l)) as [Hin|Hno]; [|rewrite (Hn Hno) in Hz; done].
    destruct (decide (lsize y = 0)) as [Hsz|Hsz]; [|destruct (decide (ldtype y = DObj)) as [Hd|Hd]].
    + destruct (H Hin (or_introl Hsz)) as (z' & Hz' & Hs). congruence.
    + rewrite (Ht Hin Hsz Hd) in Hz. done.
    + destruct (H Hin (or_intror Hd)) as (z' & Hz' & Hs). congruence.
  - assert (Hax : axis_is y axis 1) by (apply axis_01; [done..|]; split; [lia|]; destruct Hb; [left|right]; lia).
    destruct (lookup_lt_is_Some_2 (llabel y) 1) as [l Hl]; [rewrite (valid_ndim y Hv); lia|].
    destruct (sortby_eq argsort y element axis 1 l rev Hgood Hv H2 Hax Hl) as (H & Hn & Ht).
    exists 1. split; [done|]. destruct (decide (element ∈ l)) as [Hin|Hno]; [|rewrite (Hn Hno) in Hz; done].
    destruct (decide (lsize y = 0)) as [Hsz|Hsz]; [|destruct (decide (ldtype y = DObj)) as [Hd|Hd]].
    + destruct (H Hin (or_introl Hsz)) as (z' & Hz' & Hs). congruence.
    + rewrite (Ht Hin Hsz Hd) in Hz. done.
    + destruct (H Hin (or_intror Hd)) as (z' & Hz' & Hs). congruence.
  - exfalso. unfold sortby in Hz. rewrite decide_False in Hz by lia. apply bind_ok in Hz as (early & He & Hz).
    destruct early.
    + destruct (decide (lsize y = 0)); [|done]. apply bind_ok in He as (l & He & _). apply bind_ok in He as (ax & Hax & _).
      apply py_axis_is, axis_01 in Hax as [? ?]; try done. lia.
    + rewrite decide_True in Hz; [done|]. rewrite H2. destruct (decide (axis < 0)%Z); lia.
Qed.
Theorem sortby_ok argsort y element axis ax l (rev : bool) :
  good_argsort argsort -> valid y -> lndim y = 2 -> axis_is y axis ax -> llabel y !! ax = Some l -> element ∈ l -> ldtype y <> DObj ->
  exists z, sortby argsort y element axis rev = Ok z.
Proof.
  intros Hgood Hv H2 Hax Hl Hin Hd. destruct (sortby_eq argsort y element axis ax l rev Hgood Hv H2 Hax Hl) as (H & _ & _).
  destruct (H Hin (or_intror Hd)) as (z & Hz & _). eauto.
Qed.
Theorem sortby_unknown argsort y element axis ax l (rev : bool) :
  good_argsort argsort -> valid y -> lndim y = 2 -> axis_is y axis ax -> llabel y !! ax = Some l -> element ∉ l ->
  sortby argsort y element axis rev = Err IndexError.
Proof. intros Hgood Hv H2 Hax Hl. by destruct (sortby_eq argsort y element axis ax l rev Hgood Hv H2 Hax Hl) as (_ & H & _). Qed.
Lemma sortby_not_2d argsort y element axis (rev : bool) : lndim y <> 2 -> sortby argsort y element axis rev = Err ValueError.
Proof. intros. unfold sortby. by rewrite decide_True. Qed.
