(** Two calls that do the same as one: bounds, missing values, joins. *)
From Verif Require Import BaseFacts LabFacts LarryFacts SpecFacts NumFacts AlignFacts AstypeFacts RankLarry PropsLarry PropsAlign PropsNumeric PropsAlign.
From Verif Require Import StepsFacts.

(** * clip *)
Lemma clipped_unique lo hi n p q : num_le lo hi -> clipped lo hi n p -> clipped lo hi n q -> p = q.
Proof.
  intros Hlh (A1 & A2 & A3 & A4) (B1 & B2 & B3 & B4). destruct (decide (n = NaN)) as [->|Hn]; [by rewrite A1, B1|].
  destruct (num_le_nan _ _ Hlh) as [Hlo Hhi]. destruct (num_le_total lo n Hlo Hn) as [H1|H1]; [|by rewrite A2, B2].
  destruct (num_le_total n hi Hn Hhi) as [H2|H2]; [by rewrite A4, B4|by rewrite A3, B3].
Qed.
Lemma le_lt_trans a b c : num_le a b -> num_lt b c -> num_lt a c.
Proof. intros [H|[-> _]] H'; [by eapply num_lt_trans|done]. Qed.
Lemma lt_le_trans a b c : num_lt a b -> num_le b c -> num_lt a c.
Proof. intros H [H'|[<- _]]; [by eapply num_lt_trans|done]. Qed.
Lemma clipped_trans l h l' h' n m p : num_le l l' -> num_le l' h' -> num_le h' h -> clipped l h n m -> clipped l' h' m p -> clipped l' h' n p.
Proof.
  intros H1 H2 H3 (A1 & A2 & A3 & A4) (B1 & B2 & B3 & B4). destruct (num_le_nan _ _ H1) as [Hl Hl']. destruct (num_le_nan _ _ H3) as [Hh' Hh].
  destruct (decide (n = NaN)) as [->|Hn].
  { split_and!; [auto|intros [? _]%num_lt_nan; done|intros [_ ?]%num_lt_nan; done|intros [_ ?]%num_le_nan; done]. }
  destruct (num_le_total l n Hl Hn) as [Hln|Hln].
  - destruct (num_le_total n h Hn Hh) as [Hnh|Hnh].
    + specialize (A4 Hln Hnh). by subst m.
    + specialize (A3 Hnh). subst m. assert (num_lt h' n) as Hlt by (by eapply le_lt_trans).
      assert (p = h') as ->. { destruct H3 as [H3|[<- _]]; [by apply B3|]. by apply B4; [|apply num_le_refl]. }
      split_and!; [done| |done|].
      * intros Hc. exfalso. apply (num_lt_not_le n l'); [done|]. eapply num_le_trans; [done|]. by left.
      * intros _ Hc. exfalso. by apply (num_lt_not_le h' n).
  - specialize (A2 Hln). subst m. assert (num_lt n l') as Hlt by (by eapply lt_le_trans).
    assert (p = l') as ->. { destruct H1 as [H1|[<- _]]; [by apply B2|]. by apply B4; [apply num_le_refl|]. }
    split_and!; [done|done| |].
    + intros Hc. exfalso. apply (num_lt_not_le n l'); [done|]. eapply num_le_trans; [done|]. by left.
    + intros Hc. exfalso. by apply (num_lt_not_le n l').
Qed.
Lemma to_num_typed dt v w n : dt = DFloat \/ dt = DInt -> has_dtype dt v = true -> has_dtype dt w = true -> to_num v = Some n -> to_num w = Some n -> v = w.
Proof.
  intros [->| ->]; destruct v, w; try done; cbn [to_num]; intros _ _ H1 H2; apply (inj Some) in H1, H2; subst; [done|]. f_equal. symmetry. by apply num_of_Z_inj.
Qed.
Theorem clip_clip y lo hi lo' hi' l h l' h' z : valid y ->
  ldtype y = DFloat \/ ldtype y = DInt /\ has_dtype DInt lo = true /\ has_dtype DInt hi = true /\ has_dtype DInt lo' = true /\ has_dtype DInt hi' = true ->
  to_num lo = Some l -> to_num hi = Some h -> to_num lo' = Some l' -> to_num hi' = Some h' ->
  num_le l l' -> num_le l' h' -> num_le h' h -> larry_clip y lo hi = Ok z ->
  larry_clip z lo' hi' = larry_clip y lo' hi' /\
  forall w, larry_clip y lo' hi' = Ok w -> larry_clip w lo hi = Ok w.
Proof.
  intros Hv Hdt El Eh El' Eh' H1 H2 H3 Hz. assert (H4 : num_le l h) by (eapply num_le_trans; [done|]; by eapply num_le_trans).
  assert (T : ldtype y = DFloat \/ ldtype y = DInt) by tauto.
  assert (D : ldtype y = DFloat \/ ldtype y = DInt /\ has_dtype DInt lo = true /\ has_dtype DInt hi = true) by tauto.
  assert (D' : ldtype y = DFloat \/ ldtype y = DInt /\ has_dtype DInt lo' = true /\ has_dtype DInt hi' = true) by tauto.
  destruct (C34_clip y lo hi l h Hv D El Eh H4) as (z' & E & Hvz & Hlz & Hdz & Hcz). rewrite E in Hz. injection Hz as ->.
  destruct (C34_clip y lo' hi' l' h' Hv D' El' Eh' H2) as (w & Ew & Hvw & Hlw & Hdw & Hcw). rewrite Ew. split.
  - rewrite <-Hdz in D'. destruct (C34_clip z lo' hi' l' h' Hvz D' El' Eh' H2) as (u & Eu & Hvu & Hlu & Hdu & Hcu). rewrite Eu. f_equal.
    apply larry_ext; [done|done|congruence|congruence|]. intros ls Hg. rewrite Hlu, Hlz in Hg. apply valid_cell_grid in Hg as [v Hcv]; [|done].
    destruct (Hcz _ _ Hcv) as (n & v1 & m1 & N1 & C1 & M1 & P1). destruct (Hcu _ _ C1) as (n2 & v2 & m2 & N2 & C2 & M2 & P2).
    destruct (Hcw _ _ Hcv) as (n3 & v3 & m3 & N3 & C3 & M3 & P3). assert (n3 = n) as -> by congruence. assert (n2 = m1) as -> by congruence.
    rewrite C2, C3. f_equal. pose proof (clipped_trans _ _ _ _ _ _ _ H1 H2 H3 P1 P2) as P. rewrite <-(clipped_unique _ _ _ _ _ H2 P P3) in M3.
    apply (to_num_typed (ldtype y) v2 v3 m2); [done| | |done|done].
    + rewrite <-Hdz, <-Hdu. by eapply valid_cell_typed.
    + rewrite <-Hdw. by eapply valid_cell_typed.
  - intros w' [= <-]. rewrite <-Hdw in D. destruct (C34_clip w lo hi l h Hvw D El Eh H4) as (u & Eu & Hvu & Hlu & Hdu & Hcu). rewrite Eu. f_equal.
    apply larry_ext; [done|done|congruence|congruence|]. intros ls Hg. rewrite Hlu, Hlw in Hg. apply valid_cell_grid in Hg as [v Hcv]; [|done].
    destruct (Hcw _ _ Hcv) as (n & v1 & m1 & N1 & C1 & M1 & P1). destruct (Hcu _ _ C1) as (n2 & v2 & m2 & N2 & C2 & M2 & P2). assert (n2 = m1) as -> by congruence.
    rewrite C2, C1. f_equal. assert (m2 = m1) as ->.
    { destruct (decide (n = NaN)) as [->|Hn]; [destruct P1 as [P1 _]; specialize (P1 eq_refl); subst m1; destruct P2 as [P2 _]; by apply P2|].
      assert (num_le l' m1 /\ num_le m1 h') as [Q1 Q2].
      { destruct (num_le_nan _ _ H2) as [? ?]. destruct P1 as (_ & A2 & A3 & A4). destruct (num_le_total l' n) as [Hln|Hln]; [done|done| |rewrite A2 by done; split; [by apply num_le_refl|done]].
        destruct (num_le_total n h') as [Hnh|Hnh]; [done|done|rewrite A4 by done; done|rewrite A3 by done; split; [done|by apply num_le_refl]]. }
      destruct P2 as (_ & _ & _ & P2). apply P2; [by apply (num_le_trans l l' m1)|by apply (num_le_trans m1 h' h)]. }
    apply (to_num_typed (ldtype y) v2 v1 m1); [done| | |done|done].
    + rewrite <-Hdw, <-Hdu. by eapply valid_cell_typed.
    + rewrite <-Hdw. by eapply valid_cell_typed.
Qed.

(** * nan_replace *)
Theorem replace_again y v n z : valid y -> to_num v = Some n -> n <> NaN -> nan_replace y v = Ok z ->
  forall v' n', to_num v' = Some n' -> nan_replace z v' = Ok z.
Proof.
  intros Hv Hn Hne Hz v' n' Hn'. destruct (C38_nan_replace _ _ _ Hv Hz) as (Hvz & Hlz & Hdz & Hother & Hfl).
  unfold nan_replace. rewrite Hn'. cbn [of_opt mbind res_bind].
  destruct (ldtype z) eqn:E; [|by destruct z as [[? []] ?]..]. destruct (Hfl (eq_sym Hdz)) as (m & Hm & Hc). rewrite Hn in Hm. injection Hm as <-.
  f_equal. destruct z as [[dt [sh d]] lab]. cbn in E. subst dt. cbn. f_equal. f_equal. unfold amap. cbn. f_equal. trans (id <$> d); [|apply list_fmap_id]. apply list_fmap_ext.
  intros i x Hx. cbn. destruct (val_isnan x) eqn:Ex; [exfalso|done].
  assert (x = VFloat NaN) as -> by (by destruct x as [[]| | | | |]).
  destruct (in_data_cell (Larry (Nda DFloat (Arr sh d)) lab) (VFloat NaN) Hvz) as [ls Hls]; [cbn; by eapply elem_of_list_lookup_2|].
  rewrite Hc in Hls. destruct Hls as [_ Hls]. destruct (cell y ls) as [u|]; cbn in Hls; [|discriminate]. case_decide; congruence.
Qed.

(** * merge *)
Lemma no_gain y : ~ gains y y.
Proof.
  unfold gains. rewrite Exists_exists. intros ([l1 l2] & Hin & He). apply elem_of_list_lookup in Hin as [i Hi].
  apply lookup_zip_with_Some in Hi as (x & x' & [= <- <-] & Hx & Hx'). assert (l1 = l2) as -> by congruence. rewrite Exists_exists in He. cbn in He. naive_solver.
Qed.
Theorem merge_self y : valid y -> larry_merge y y true = Ok y.
Proof.
  intros Hv. assert (J : joined_dtype y y = ldtype y) by (unfold joined_dtype; by rewrite decide_False by apply no_gain).
  destruct (proj2 (C18_merge_succeeds y y true Hv Hv)) as [z Hz].
  { split_and!; [done|intros; left; congruence|by left|by left|]. right. by left. }
  rewrite Hz. f_equal. destruct (C18_merge_any _ _ _ _ Hv Hv Hz) as (_ & Hvz & [Hlen HL] & Hd & Hc). rewrite J in Hd.
  assert (E : llabel z = llabel y).
  { apply list_eq_same_length with (length (llabel y)); [done|done|]. intros i u l _ Hu Hl. specialize (HL _ _ _ _ Hl Hl Hu). unfold union_label in HL. by rewrite decide_True in HL. }
  apply larry_ext; [done..|]. intros ls Hg. rewrite Hc by done. rewrite E in Hg. apply valid_cell_grid in Hg as [v Hcv]; [|done]. rewrite Hcv. f_equal.
  assert (cast_to (ldtype z) v = v) as Ec by (apply cast_to_typed; rewrite Hd; by eapply valid_cell_typed).
  unfold solid_at, data_at. rewrite Hcv. cbn [mbind option_bind]. case_decide; [done|]. cbn [mbind option_bind]. by case_decide.
Qed.
Lemma union_elem l1 l2 u x : union_label l1 l2 u -> x ∈ u <-> x ∈ l1 \/ x ∈ l2.
Proof. unfold union_label. case_decide; [intros ->; subst; tauto|]. intros [_ HU]. apply HU. Qed.
Lemma union_cases l1 l2 u : union_label l1 l2 u -> l1 = l2 /\ u = l1 \/ StronglySorted lab_lt u.
Proof. unfold union_label. case_decide; [by left|]. right. tauto. Qed.
Lemma union_assoc l1 l2 l3 a b u w : union_label l1 l2 a -> union_label a l3 u -> union_label l2 l3 b -> union_label l1 b w -> u = w.
Proof.
  intros Ha Hu Hb Hw. assert (He : forall x, x ∈ u <-> x ∈ w).
  { intros x. rewrite (union_elem _ _ _ x Hu), (union_elem _ _ _ x Ha), (union_elem _ _ _ x Hw), (union_elem _ _ _ x Hb). tauto. }
  assert (Su : (l1 = l2 /\ l2 = l3 /\ u = l1) \/ StronglySorted lab_lt u).
  { destruct (union_cases _ _ _ Hu) as [[-> ->]|?]; [|by right]. destruct (union_cases _ _ _ Ha) as [[-> ->]|?]; [by left|by right]. }
  assert (Sw : (l1 = l2 /\ l2 = l3 /\ w = l1) \/ StronglySorted lab_lt w).
  { destruct (union_cases _ _ _ Hw) as [[-> ->]|?]; [|by right]. destruct (union_cases _ _ _ Hb) as [[-> ->]|?]; [by left|by right]. }
  destruct Su as [(-> & -> & ->)|Su].
  - unfold union_label in Hb. rewrite decide_True in Hb by done. subst b. unfold union_label in Hw. by rewrite decide_True in Hw.
  - destruct Sw as [(-> & -> & ->)|Sw].
    + unfold union_label in Ha. rewrite decide_True in Ha by done. subst a. unfold union_label in Hu. by rewrite decide_True in Hu.
    + by apply lt_sorted_unique.
Qed.
Lemma merge_float y1 y2 z : valid y1 -> valid y2 -> ldtype y1 = DFloat -> ldtype y2 = DFloat -> larry_merge y1 y2 true = Ok z ->
  valid z /\ merge_labels y1 y2 z /\ lndim y1 = lndim y2 /\ ldtype z = DFloat /\
  forall ls, in_grid (llabel z) ls -> cell z ls = Some (default (default (VFloat NaN) (cell y1 ls)) (solid_at y2 ls)).
Proof.
  intros H1 H2 D1 D2 Hz. destruct (C18_merge_any _ _ _ _ H1 H2 Hz) as (Hn & Hvz & HL & Hd & Hc).
  assert (Dz : ldtype z = DFloat) by (rewrite Hd; unfold joined_dtype; rewrite D1; by case_decide).
  split_and!; [done..|]. intros ls Hg. rewrite Hc by done. rewrite Dz. f_equal. cbn [missing_mark].
  assert (Hs : forall v, solid_at y2 ls = Some v -> cast_to DFloat v = v).
  { intros v Hv. apply cast_to_typed. rewrite <-D2. eapply valid_cell_typed; [done|]. unfold solid_at, data_at in Hv. destruct (cell y2 ls) as [u|] eqn:E; [|done]. cbn [mbind option_bind] in Hv.
    case_decide; [done|]. cbn [mbind option_bind] in Hv. case_decide; [done|]. exact (eq_trans E Hv). }
  destruct (solid_at y2 ls) as [v|] eqn:E; [by apply Hs|]. destruct (cell y1 ls) as [v|] eqn:E'; [|done]. apply cast_to_typed. rewrite <-D1. by eapply valid_cell_typed.
Qed.
Lemma merge_float_ok y1 y2 : valid y1 -> valid y2 -> ldtype y1 = DFloat -> ldtype y2 = DFloat ->
  (exists z, larry_merge y1 y2 true = Ok z) <-> lndim y1 = lndim y2 /\
  forall i l1 l2, llabel y1 !! i = Some l1 -> llabel y2 !! i = Some l2 -> l1 = l2 \/ all_comparable (l1 ++ l2).
Proof.
  intros H1 H2 D1 D2. rewrite C18_merge_succeeds by done. unfold mergeable, joined_dtype. rewrite D1, D2. cbn [missing_dtype]. split; [tauto|]. intros [? ?].
  split_and!; [done|done|by left|by left|]. right. left. by repeat case_decide.
Qed.
Lemma merge_label_at y1 y2 z i u : valid y1 -> valid y2 -> merge_labels y1 y2 z -> lndim y1 = lndim y2 -> llabel z !! i = Some u ->
  exists l1 l2, llabel y1 !! i = Some l1 /\ llabel y2 !! i = Some l2 /\ union_label l1 l2 u.
Proof.
  intros H1 H2 [Hlen HL] Hn Hu. rewrite <-!valid_ndim in Hn by done. pose proof (lookup_lt_Some _ _ _ Hu) as Hlt.
  destruct (lookup_lt_is_Some_2 (llabel y1) i) as [l1 E1]; [lia|]. destruct (lookup_lt_is_Some_2 (llabel y2) i) as [l2 E2]; [lia|]. eauto 10.
Qed.
Lemma comparable_sub l k : (forall x, x ∈ k -> x ∈ l) -> all_comparable l -> all_comparable k.
Proof. intros Hs H a b Ha Hb. apply H; by apply Hs. Qed.
Theorem merge_assoc y1 y2 y3 a z : valid y1 -> valid y2 -> valid y3 -> ldtype y1 = DFloat -> ldtype y2 = DFloat -> ldtype y3 = DFloat ->
  larry_merge y1 y2 true = Ok a -> larry_merge a y3 true = Ok z ->
  exists b, larry_merge y2 y3 true = Ok b /\ larry_merge y1 b true = Ok z.
Proof.
  intros H1 H2 H3 D1 D2 D3 Ea Ez.
  destruct (merge_float _ _ _ H1 H2 D1 D2 Ea) as (Va & La & Na & Da & Ca). destruct (merge_float _ _ _ Va H3 Da D3 Ez) as (Vz & Lz & Nz & Dz & Cz).
  destruct (proj1 (merge_float_ok _ _ H1 H2 D1 D2) (ex_intro _ a Ea)) as [_ Ka]. destruct (proj1 (merge_float_ok _ _ Va H3 Da D3) (ex_intro _ z Ez)) as [_ Kz].
  assert (Nl : length (llabel a) = length (llabel y1)) by apply La. assert (Na' := Na). rewrite <-!valid_ndim in Na' by done. assert (Nz' := Nz). rewrite <-!valid_ndim in Nz' by done.
  assert (Hcmp : forall i l1 l2 l3, llabel y1 !! i = Some l1 -> llabel y2 !! i = Some l2 -> llabel y3 !! i = Some l3 -> (l1 = l2 /\ l2 = l3) \/ all_comparable (l1 ++ l2 ++ l3)).
  { intros i l1 l2 l3 E1 E2 E3. destruct (lookup_lt_is_Some_2 (llabel a) i) as [u Eu]; [apply lookup_lt_Some in E1; lia|].
    pose proof (proj2 La _ _ _ _ E1 E2 Eu) as U. destruct (Kz _ _ _ Eu E3) as [->|K].
    - destruct (Ka _ _ _ E1 E2) as [->|K]; [left; unfold union_label in U; rewrite decide_True in U by done; by subst|]. right.
      apply (comparable_sub (l1 ++ l2)); [|done]. intros x. rewrite !elem_of_app, (union_elem _ _ _ x U). tauto.
    - right. apply (comparable_sub (u ++ l3)); [|done]. intros x. rewrite !elem_of_app, (union_elem _ _ _ x U). tauto. }
  destruct (proj2 (merge_float_ok y2 y3 H2 H3 D2 D3)) as [b Eb].
  { split; [by rewrite <-Nz, <-!valid_ndim by done; lia|]. intros i l2 l3 E2 E3. destruct (lookup_lt_is_Some_2 (llabel y1) i) as [l1 E1]; [apply lookup_lt_Some in E2; lia|].
    destruct (Hcmp _ _ _ _ E1 E2 E3) as [[-> ->]|K]; [by left|]. right. apply (comparable_sub (l1 ++ l2 ++ l3)); [|done]. intros x. rewrite !elem_of_app. tauto. }
  exists b. split; [done|]. destruct (merge_float _ _ _ H2 H3 D2 D3 Eb) as (Vb & Lb & Nb & Db & Cb). assert (Nb' : length (llabel b) = length (llabel y2)) by apply Lb.
  destruct (proj2 (merge_float_ok y1 b H1 Vb D1 Db)) as [w Ew].
  { split; [rewrite <-!valid_ndim by done; lia|]. intros i l1 u E1 Eu. destruct (merge_label_at _ _ _ _ _ H2 H3 Lb Nb Eu) as (l2 & l3 & E2 & E3 & U).
    destruct (Hcmp _ _ _ _ E1 E2 E3) as [[-> ->]|K]; [left; unfold union_label in U; by rewrite decide_True in U|]. right.
    apply (comparable_sub (l1 ++ l2 ++ l3)); [|done]. intros x. rewrite !elem_of_app, (union_elem _ _ _ x U). tauto. }
  rewrite Ew. f_equal. destruct (merge_float _ _ _ H1 Vb D1 Db Ew) as (Vw & Lw & Nw & Dw & Cw).
  assert (EL : llabel w = llabel z).
  { apply list_eq_same_length with (length (llabel y1)); [rewrite (proj1 Lz); lia|by apply Lw|]. intros i u v _ Hu Hv.
    destruct (merge_label_at _ _ _ _ _ H1 Vb Lw Nw Hu) as (l1 & ub & E1 & Eub & U1). destruct (merge_label_at _ _ _ _ _ H2 H3 Lb Nb Eub) as (l2 & l3 & E2 & E3 & U2).
    destruct (merge_label_at _ _ _ _ _ Va H3 Lz Nz Hv) as (ua & l3' & Eua & E3' & U3). assert (l3' = l3) as -> by congruence. pose proof (proj2 La _ _ _ _ E1 E2 Eua) as U4.
    symmetry. by eapply (union_assoc l1 l2 l3). }
  apply larry_ext; [done|done|congruence|done|]. intros ls Hg. rewrite Cw by done. rewrite EL in Hg. rewrite Cz by done. f_equal.
  assert (Hb : cell b ls = None -> solid_at y3 ls = None /\ cell y2 ls = None).
  { intros E. assert (forall yy, valid yy -> (forall i l u, llabel yy !! i = Some l -> llabel b !! i = Some u -> forall x, x ∈ l -> x ∈ u) -> length (llabel yy) = length (llabel b) -> cell yy ls = None) as Hn.
    { intros yy Hyy Hsub Hlen. apply cell_None_grid; [done|]. intros Hgy. apply (cell_None_grid b ls Vb) in E. apply E. apply in_grid_alt. apply in_grid_alt in Hgy as [Hl Hgy]. split; [lia|].
      intros ax x u Hx Hu. destruct (lookup_lt_is_Some_2 (llabel yy) ax) as [l Hl']; [apply lookup_lt_Some in Hu; lia|]. eapply Hsub; [done|done|]. by eapply Hgy. }
    split.
    - unfold solid_at, data_at. rewrite (Hn y3 H3); [done| |lia]. intros i l u El Eu x Hx. destruct (merge_label_at _ _ _ _ _ H2 H3 Lb Nb Eu) as (l2 & l3 & E2 & E3 & U). rewrite (union_elem _ _ _ x U). right. congruence.
    - apply Hn; [done| |lia]. intros i l u El Eu x Hx. destruct (merge_label_at _ _ _ _ _ H2 H3 Lb Nb Eu) as (l2 & l3 & E2 & E3 & U). rewrite (union_elem _ _ _ x U). left. congruence. }
  assert (Ha : cell a ls = None -> solid_at y2 ls = None /\ cell y1 ls = None).
  { intros E. assert (forall yy, valid yy -> (forall i l u, llabel yy !! i = Some l -> llabel a !! i = Some u -> forall x, x ∈ l -> x ∈ u) -> length (llabel yy) = length (llabel a) -> cell yy ls = None) as Hn.
    { intros yy Hyy Hsub Hlen. apply cell_None_grid; [done|]. intros Hgy. apply (cell_None_grid a ls Va) in E. apply E. apply in_grid_alt. apply in_grid_alt in Hgy as [Hl Hgy]. split; [lia|].
      intros ax x u Hx Hu. destruct (lookup_lt_is_Some_2 (llabel yy) ax) as [l Hl']; [apply lookup_lt_Some in Hu; lia|]. eapply Hsub; [done|done|]. by eapply Hgy. }
    split.
    - unfold solid_at, data_at. rewrite (Hn y2 H2); [done| |lia]. intros i l u El Eu x Hx. destruct (merge_label_at _ _ _ _ _ H1 H2 La Na Eu) as (l2 & l3 & E2 & E3 & U). rewrite (union_elem _ _ _ x U). right. congruence.
    - apply Hn; [done| |lia]. intros i l u El Eu x Hx. destruct (merge_label_at _ _ _ _ _ H1 H2 La Na Eu) as (l2 & l3 & E2 & E3 & U). rewrite (union_elem _ _ _ x U). left. congruence. }
  assert (Sb : solid_at b ls = match solid_at y3 ls with Some v => Some v | None => solid_at y2 ls end).
  { assert (Hself : forall yy v, ldtype yy = DFloat -> solid_at yy ls = Some v -> v <> VFloat NaN /\ v <> VFloat PInf /\ v <> VFloat NInf).
    { intros yy v Dyy. unfold solid_at, data_at. rewrite Dyy. destruct (cell yy ls) as [u|]; [|done]. cbn [mbind option_bind marker]. case_decide as N1; [done|]. cbn [mbind option_bind]. case_decide as N2; [done|].
      intros [= <-]. split_and!; [congruence|intros ->; apply N2; tauto|intros ->; apply N2; tauto]. }
    destruct (cell b ls) as [v|] eqn:E.
    - assert (in_grid (llabel b) ls) as Hgb by (apply valid_cell_grid; [done|by rewrite E]). pose proof E as Ecb. rewrite (Cb ls Hgb) in E. unfold solid_at at 1, data_at at 1. rewrite Ecb, Db. cbn [mbind option_bind marker].
      destruct (solid_at y3 ls) as [v3|] eqn:E3; cbn in E; apply (inj Some) in E; subst v.
      + destruct (Hself y3 v3 D3 E3) as (N1 & N2 & N3). rewrite decide_False by congruence. cbn [mbind option_bind]. rewrite decide_False; [done|]. intros [_ [?|?]]; done.
      + unfold solid_at, data_at. rewrite D2. destruct (cell y2 ls) as [v2|]; cbn [default mbind option_bind marker]; [done|]. by rewrite decide_True.
    - destruct (Hb eq_refl) as [-> E2]. unfold solid_at, data_at. by rewrite E, E2. }
  rewrite Sb. destruct (solid_at y3 ls) as [v3|] eqn:E3; [done|]. cbn [default].
  destruct (cell a ls) as [v|] eqn:E.
  - assert (in_grid (llabel a) ls) as Hga by (apply valid_cell_grid; [done|by rewrite E]). rewrite (Ca ls Hga) in E. by apply (inj Some) in E.
  - by destruct (Ha eq_refl) as [-> ->].
Qed.

(** * align *)
Theorem align_again y1 y2 j cast z1 z2 : valid y1 -> valid y2 -> align y1 y2 j cast = Ok (z1, z2) -> align z1 z2 j cast = Ok (z1, z2).
Proof.
  intros H1 H2 Hz. destruct (C19_align _ _ _ _ _ _ H1 H2 Hz) as (Hn & R1 & R2 & L1 & L2 & (js & Hjs & HJ) & _).
  assert (V1 : valid z1) by apply R1. assert (V2 : valid z2) by apply R2. rewrite <-!valid_ndim in Hn by done.
  assert (Hn' : lndim z1 = lndim z2) by (rewrite <-!valid_ndim by done; lia).
  assert (Hn2 : lndim z2 = lndim y2) by (rewrite <-!valid_ndim by done; lia).
  assert (Hlen : length js = length (llabel y2)).
  { rewrite valid_ndim by done. destruct j; cbn in Hjs; [subst; apply replicate_length|destruct Hjs; by subst|done]. }
  assert (HE : forall i ji r1 r2, js !! i = Some ji -> llabel z1 !! i = Some r1 -> llabel z2 !! i = Some r2 -> (ji <> JSkip -> r1 = r2) /\ ji <> JBad).
  { intros i ji r1 r2 Hi E1 E2. destruct (lookup_lt_is_Some_2 (llabel y1) i) as [l1 F1]; [apply lookup_lt_Some in E1; lia|]. destruct (lookup_lt_is_Some_2 (llabel y2) i) as [l2 F2]; [apply lookup_lt_Some in E2; lia|].
    destruct (HJ _ _ _ _ _ F1 F2 E1 E2) as (ji' & Hi' & Hjl). rewrite Hi in Hi'. injection Hi' as <-. destruct ji; cbn in Hjl; try (split; [intros _|done]; destruct Hjl; congruence); done. }
  destruct (proj2 (C19_align_succeeds z1 z2 j cast js V1 V2 Hn' ltac:(by rewrite Hn2))) as (w1 & w2 & Hw).
  { intros i ji r1 r2 Hi E1 E2. destruct (HE _ _ _ _ Hi E1 E2) as [He Hb]. destruct ji; try done; try (rewrite (He ltac:(done)); split_and!; [by left|right; right; cbn; naive_solver|right; right; cbn; naive_solver]).
    split_and!; [done|right; right; cbn; tauto|right; right; cbn; tauto]. }
  rewrite Hw. destruct (C19_align _ _ _ _ _ _ V1 V2 Hw) as (_ & S1 & S2 & M1 & M2 & (js' & Hjs' & HJ') & _ & N1 & N2).
  assert (js' = js) as ->. { rewrite Hn2 in Hjs'. destruct j; cbn in Hjs, Hjs'; [congruence|destruct Hjs, Hjs'; congruence|done]. }
  assert (HL : llabel w1 = llabel z1 /\ llabel w2 = llabel z2).
  { assert (forall i r1 r2 s1 s2, llabel z1 !! i = Some r1 -> llabel z2 !! i = Some r2 -> llabel w1 !! i = Some s1 -> llabel w2 !! i = Some s2 -> s1 = r1 /\ s2 = r2) as Heq.
    { intros i r1 r2 s1 s2 E1 E2 F1 F2. destruct (HJ' _ _ _ _ _ E1 E2 F1 F2) as (ji & Hi & Hjl). destruct (HE _ _ _ _ Hi E1 E2) as [He _].
      destruct ji; cbn in Hjl; unfold inter_label, union_label in Hjl; try rewrite (He ltac:(done)) in *; try rewrite decide_True in Hjl by done; try done; destruct Hjl; split; congruence. }
    split.
    - apply list_eq_same_length with (length (llabel z1)); [done|done|]. intros i s1 r1 Hi F1 E1. destruct (lookup_lt_is_Some_2 (llabel z2) i) as [r2 E2]; [lia|]. destruct (lookup_lt_is_Some_2 (llabel w2) i) as [s2 F2]; [lia|]. by edestruct Heq as [-> _].
    - apply list_eq_same_length with (length (llabel z2)); [done|done|]. intros i s2 r2 Hi F2 E2. destruct (lookup_lt_is_Some_2 (llabel z1) i) as [r1 E1]; [lia|]. destruct (lookup_lt_is_Some_2 (llabel w1) i) as [s1 F1]; [lia|]. by edestruct Heq as [_ ->]. }
  destruct HL as [HL1 HL2].
  assert (Hfin : forall z w, valid z -> realigned z w -> llabel w = llabel z -> ldtype w = ldtype z -> w = z).
  { intros z w Vz (Vw & _ & _ & Cw) Hl Hd. apply larry_ext; [done..|]. intros ls Hg. rewrite Cw by done. rewrite Hl in Hg. apply valid_cell_grid in Hg as [v Hv]; [|done]. rewrite Hv. f_equal. apply cast_to_typed. rewrite Hd. by eapply valid_cell_typed. }
  rewrite (Hfin z1 w1), (Hfin z2 w2); try done.
  - apply N2. intros i l r E F. rewrite HL2 in F. by assert (r = l) as -> by congruence.
  - apply N1. intros i l r E F. rewrite HL1 in F. by assert (r = l) as -> by congruence.
Qed.

(** * squeeze, maplabel *)
Lemma squeeze_label_again sh LL : length LL = length sh -> squeeze_label (filter (fun n => n <> 1) sh) (squeeze_label sh LL) = squeeze_label sh LL.
Proof.
  revert LL. induction sh as [|n sh IH]; intros [|L LL] Hl; [reflexivity|done|done|].
  unfold squeeze_label in *. specialize (IH LL ltac:(cbn in Hl; lia)). cbn [zip_with]. destruct (decide (n <> 1)) as [Hn|Hn].
  - rewrite (filter_cons_True (fun m : nat => m <> 1)) by done. rewrite !(filter_cons_True (fun p : nat * list lab => p.1 <> 1)) by done. rewrite !fmap_cons. cbn [snd zip_with].
    rewrite (filter_cons_True (fun p : nat * list lab => p.1 <> 1)) by done. rewrite !fmap_cons. cbn [snd]. f_equal. exact IH.
  - rewrite (filter_cons_False (fun m : nat => m <> 1)) by (cbn; tauto). rewrite !(filter_cons_False (fun p : nat * list lab => p.1 <> 1)) by (cbn; tauto). exact IH.
Qed.
Theorem squeeze_again y : valid y -> squeeze (squeeze y) = squeeze y.
Proof.
  intros Hv. pose proof (valid_ndim y Hv) as Hlen.
  assert (E : forall sh : list nat, filter (fun n => n <> 1) (filter (fun n => n <> 1) sh) = filter (fun n => n <> 1) sh).
  { intros sh. rewrite list_filter_filter. apply list_filter_iff. tauto. }
  unfold squeeze, np_squeeze. cbn. rewrite E. f_equal. apply (squeeze_label_again (lshape y)). exact Hlen.
Qed.
Theorem maplabel_twice y f g axis z w : maplabel y f axis = Ok z -> maplabel z g axis = Ok w -> maplabel y (fun l => g (f l)) axis = Ok w.
Proof.
  assert (Hmm : forall l, map_axis g (map_axis f l) = map_axis (fun l => g (f l)) l) by (intros l; unfold map_axis; by rewrite <-list_fmap_compose).
  destruct axis as [a|]; cbn [maplabel].
  - unfold py_axis. destruct (py_index (length (llabel y)) a) as [ax|] eqn:Ea; [|discriminate]. cbn [of_opt mbind res_bind]. unfold axis_label. destruct (llabel y !! ax) as [l|] eqn:El; [|discriminate].
    cbn [of_opt mbind res_bind]. intros [= <-]. cbn [lx llabel]. rewrite insert_length, Ea. cbn [of_opt mbind res_bind]. rewrite list_lookup_insert by (by eapply lookup_lt_Some).
    cbn [of_opt mbind res_bind]. intros [= <-]. by rewrite list_insert_insert, Hmm.
  - intros [= <-]. cbn [lx llabel]. intros [= <-]. f_equal. f_equal. rewrite <-list_fmap_compose. apply list_fmap_ext. intros i l _. cbn. by rewrite Hmm.
Qed.
