(** Facts about Scalar.v. *)
From Verif Require Import SpecFacts AstypeFacts.
From Verif Require Export Scalar.
From Coq Require Import Ascii.

(** * Type tests *)
Lemma isint_iff py t : isint py t = true <-> integer_type t /\ ~ unsigned_type t.
Proof. destruct py, t; try destruct w; vm_compute; split; try done; intros [? ?]; tauto. Qed.
Lemma isfloat_iff py t : isfloat py t = true <-> float_type t.
Proof. destruct py, t; try destruct w; vm_compute; done. Qed.
Lemma isscalar_iff py t : isscalar py t = true <-> float_type t \/ (integer_type t /\ ~ unsigned_type t).
Proof. unfold isscalar. by rewrite orb_true_iff, isint_iff, isfloat_iff. Qed.
Lemma isint_not_float py t : ~ (isint py t = true /\ isfloat py t = true).
Proof. rewrite isint_iff, isfloat_iff. destruct t; simpl; tauto. Qed.
Lemma isstring_iff py t : isstring py t = true <-> t = PyStr \/ (py = Py2 /\ t = NpString) \/ (py = Py3 /\ t = NpUnicode).
Proof. destruct py, t; simpl; intuition congruence. Qed.
Lemma isstring_not_scalar py t : isstring py t = true -> isscalar py t = false.
Proof. by destruct py, t; try destruct w. Qed.

(** * Indexing *)
Lemma getitem_scalar_ok py y t q : float_type t \/ (integer_type t /\ ~ unsigned_type t) ->
  exists z, truncated q z /\ getitem_scalar py y (Scalar t (Fin q)) = larry_getitem y (XInt z) /\ lix_scalar py y (Scalar t (Fin q)) = lix_get y (LxInt z).
Proof.
  intros Ht%(isscalar_iff py). exists (Qc_trunc q). split; [apply trunc_spec|]. unfold lix_scalar, lix_get, getitem_scalar. simpl. rewrite Ht. done.
Qed.
Lemma getitem_scalar_Z py y t z : float_type t \/ (integer_type t /\ ~ unsigned_type t) ->
  getitem_scalar py y (Scalar t (num_of_Z z)) = larry_getitem y (XInt z) /\ lix_scalar py y (Scalar t (num_of_Z z)) = lix_get y (LxInt z).
Proof.
  intros Ht%(isscalar_iff py). unfold lix_scalar, lix_get, getitem_scalar, num_of_Z. simpl. rewrite Ht, trunc_Z. done.
Qed.
Lemma getitem_scalar_err py y v : ~ float_type (sc_type v) -> ~ integer_type (sc_type v) \/ unsigned_type (sc_type v) -> getitem_scalar py y v = Err IndexError.
Proof. intros H1 H2. unfold getitem_scalar. destruct (isscalar py (sc_type v)) eqn:E; [|done]. apply isscalar_iff in E. tauto. Qed.

(** * Random strings *)
Lemma letters_alnum c : c ∈ letters <-> alnum c.
Proof.
  split.
  - intros H. assert (F : Forall alnum letters); [|rewrite Forall_forall in F; by apply F].
    apply (Forall_impl (fun c => (let n := nat_of_ascii c in (97 <=? n) && (n <=? 122) || (65 <=? n) && (n <=? 90) || (48 <=? n) && (n <=? 57))%nat = true)).
    { by repeat constructor. }
    intros x Hx. cbv zeta in Hx. unfold alnum. cbv zeta. rewrite !orb_true_iff, !andb_true_iff, !Nat.leb_le in Hx. lia.
  - destruct c as [b0 b1 b2 b3 b4 b5 b6 b7]. unfold alnum. cbv zeta. intros H.
    destruct (decide (Ascii b0 b1 b2 b3 b4 b5 b6 b7 ∈ letters)) as [|N]; [done|]. exfalso.
    destruct b0, b1, b2, b3, b4, b5, b6, b7; first [by apply N; apply (bool_decide_unpack _); vm_compute|clear N; vm_compute in H; lia].
Qed.
Lemma randstring_ok d n : (forall i nc, d i nc <= nc) -> exists s, randstring d n = Ok s /\ Z.of_nat (length s) = Z.max n 0 /\ Forall alnum s /\
  forall i, i < length s -> s !! i = letters !! d i 61.
Proof.
  intros Hd. unfold randstring. change (length letters - 1) with 61. cbv zeta.
  assert (H : forall l, exists s, mapR (fun i => of_opt IndexError (letters !! d i 61)) l = Ok s /\ length s = length l /\ Forall alnum s /\ forall i j, l !! i = Some j -> s !! i = letters !! d j 61).
  { intros l. induction l as [|j l IH]; [exists []; done|]. destruct IH as (s & Hs & Hl & Hf & Hi). destruct (lookup_lt_is_Some_2 letters (d j 61)) as [c Hc].
    { change (length letters) with 62. specialize (Hd j 61). lia. }
    exists (c :: s). cbn [mapR]. rewrite Hc, Hs. split; [done|]. split; [cbn [length]; by rewrite Hl|]. split; [constructor; [apply letters_alnum; by eapply elem_of_list_lookup_2|done]|].
    intros [|i] k Hk; [injection Hk as <-; by rewrite Hc|by apply (Hi i)]. }
  destruct (H (seq 0 (Z.to_nat n))) as (s & Hs & Hl & Hf & Hi). exists s. rewrite seq_length in Hl. split_and!; [done|lia|done|]. intros i Hlt. apply (Hi i i). apply lookup_seq. lia.
Qed.
Lemma randstring_onto s : Forall alnum s -> exists d, (forall i nc, d i nc <= nc) /\ randstring d (Z.of_nat (length s)) = Ok s.
Proof.
  intros Hf. assert (exists g : nat -> nat, (forall i, g i <= 61) /\ forall i c, s !! i = Some c -> letters !! g i = Some c) as (g & Hg & Hs).
  { induction s as [|c s IH]; [exists (fun _ => 0); split; [lia|done]|]. inversion Hf as [|? ? Hc Hf']; subst. destruct (IH Hf') as (g & Hg & Hs). apply letters_alnum in Hc. apply elem_of_list_lookup in Hc as [k Hk].
    exists (fun i => match i with 0 => k | S i => g i end). split; [intros [|i]; [|done]|].
    - apply lookup_lt_Some in Hk. change (length letters) with 62 in Hk. lia.
    - intros [|i] c' Hc'; [injection Hc' as <-; done|by apply Hs]. }
  exists (fun i nc => Nat.min (g i) nc). split; [intros; apply Nat.le_min_r|].
  assert (Hm : forall i nc : nat, Nat.min (g i) nc <= nc) by (intros; apply Nat.le_min_r).
  destruct (randstring_ok (fun i nc => Nat.min (g i) nc) (Z.of_nat (length s)) Hm) as (s' & -> & Hl & _ & Hi). f_equal.
  apply list_eq. intros i. destruct (decide (i < length s)) as [Hlt|Hge].
  - destruct (lookup_lt_is_Some_2 s i Hlt) as [c Hc]. rewrite Hi by lia. rewrite Nat.min_l by apply Hg. rewrite Hc. by apply Hs.
  - rewrite !lookup_ge_None_2 by lia. done.
Qed.

(** * Space *)
(** Induction over the members of groups. *)
Lemma node_rect' (P : node -> Prop) : (forall x, P (NX x)) -> (forall a dt, P (NLabel a dt)) -> (forall a ms, Forall (fun p => P p.2) ms -> P (NGroup a ms)) -> forall n, P n.
Proof.
  intros H1 H2 H3. fix IH 1. intros [x|a dt|a ms]; [apply H1|apply H2|]. apply H3. induction ms as [|[k c] ms IHms]; constructor; [apply IH|done].
Qed.
Fixpoint datasets (n : node) : list (list string * node) :=
  match n with
  | NGroup _ ms => concat (map (fun p => match p.2 with NGroup _ _ => (fun q => (p.1 :: q.1, q.2)) <$> datasets p.2 | c => [([p.1], c)] end) ms)
  | _ => []
  end.
Lemma dict_get_first {V} (ms : list (string * V)) k v : NoDup ms.*1 -> (k, v) ∈ ms <-> dict_get ms k = Some v.
Proof.
  induction ms as [|[k' v'] ms IH]; simpl; [intros _; split; [by intros ?%elem_of_nil|done]|]. intros [Hn Hd]%NoDup_cons. rewrite elem_of_cons. case_decide as E.
  - subst. split; [intros [[= ->]|Hin]; [done|]|intros [= ->]; by left]. exfalso. apply Hn. apply elem_of_list_fmap. by exists (k', v).
  - rewrite <-IH by done. split; [intros [[= ? ?]|?]; done|by right].
Qed.
Lemma distinct_member a ms k c : distinct_names (NGroup a ms) -> (k, c) ∈ ms -> distinct_names c.
Proof.
  intros H Hin p b ms' Hg. apply (H (k :: p) b ms'). cbn. assert (N := H [] a ms eq_refl). apply dict_get_first in Hin as ->; done.
Qed.
Lemma datasets_elem f : distinct_names f -> forall p n, (p, n) ∈ datasets f <-> dataset_at f p n.
Proof.
  induction f as [x|a dt|a ms IH] using node_rect'; intros Hd p n; unfold dataset_at.
  - simpl. split; [by intros ?%elem_of_nil|]. intros (Hp & Hg & _). by destruct p.
  - simpl. split; [by intros ?%elem_of_nil|]. intros (Hp & Hg & _). by destruct p.
  - cbn [datasets]. assert (N := Hd [] a ms eq_refl). rewrite elem_of_list_In, in_concat. setoid_rewrite in_map_iff. rewrite Forall_forall in IH. split.
    + intros (l & ([k c] & <- & Hin) & Hl). apply elem_of_list_In in Hin; apply elem_of_list_In in Hl. assert (Hc : distinct_names c) by (by eapply distinct_member). specialize (IH _ Hin Hc). cbn [fst snd] in *.
      assert (G := proj1 (dict_get_first ms k c N) Hin). destruct c as [x|b dt|b ms'].
      * apply elem_of_list_singleton in Hl as [= -> ->]. cbn. by rewrite G.
      * apply elem_of_list_singleton in Hl as [= -> ->]. cbn. by rewrite G.
      * apply elem_of_list_fmap in Hl as ([q m] & [= -> ->] & Hq). apply IH in Hq as (? & ? & ?). cbn [node_get fst snd]. rewrite G. done.
    + intros (Hp & Hg & Hs). destruct p as [|k p]; [done|]. cbn [node_get] in Hg. destruct (dict_get ms k) as [c|] eqn:G; [|done]. cbn [mbind option_bind] in Hg. apply dict_get_first in G; [|done].
      eexists. split; [exists (k, c); split; [reflexivity|by apply elem_of_list_In]|]. cbn [fst snd]. apply elem_of_list_In. destruct c as [x|b dt|b ms'].
      * destruct p; [|done]. injection Hg as <-. by apply elem_of_list_singleton.
      * destruct p; [|done]. injection Hg as <-. by apply elem_of_list_singleton.
      * apply elem_of_list_fmap. exists (p, n). split; [done|]. apply (IH _ G); [by eapply distinct_member|]. split_and!; try done. intros ->. injection Hg as <-. done.
Qed.
Lemma datasets_nodup f : distinct_names f -> NoDup (datasets f).*1.
Proof.
  induction f as [x|a dt|a ms IH] using node_rect'; intros Hd; [constructor|constructor|]. assert (N := Hd [] a ms eq_refl). cbn [datasets].
  assert (Hm : forall k c, (k, c) ∈ ms -> NoDup (datasets c).*1). { intros k c Hin. rewrite Forall_forall in IH. apply (IH _ Hin). by eapply distinct_member. }
  clear IH Hd. induction ms as [|[k c] ms IHm]; [constructor|]. cbn [map concat fst snd]. apply NoDup_cons in N as [Nk N]. rewrite fmap_app. apply NoDup_app. split_and!.
  - specialize (Hm k c ltac:(by left)). destruct c as [x|b dt|b ms']; [apply NoDup_singleton|apply NoDup_singleton|]. rewrite <-list_fmap_compose.
    change ((fst ∘ (fun q : list string * node => (k :: q.1, q.2))) <$> datasets (NGroup b ms')) with ((fun q : list string * node => k :: q.1) <$> datasets (NGroup b ms')).
    assert (E : (fun q : list string * node => k :: q.1) <$> datasets (NGroup b ms') = cons k <$> (datasets (NGroup b ms')).*1) by (by rewrite <-list_fmap_compose). rewrite E. apply NoDup_fmap_2; [|done]. by intros ? ? [= ->].
  - intros p Hp Hq. assert (Hk : exists q, p = k :: q). { destruct c as [x|b dt|b ms']; [apply elem_of_list_singleton in Hp as ->; eauto|apply elem_of_list_singleton in Hp as ->; eauto|].
      apply elem_of_list_fmap in Hp as ([p' m] & -> & Hp). apply elem_of_list_fmap in Hp as ([q m'] & [= -> ->] & _). eauto. }
    destruct Hk as [q ->]. apply elem_of_list_fmap in Hq as ([p' m] & E & Hq). cbn in E. subst p'. rewrite elem_of_list_In, in_concat in Hq. destruct Hq as (l & Hl & Hin). apply in_map_iff in Hl as ([k' c'] & <- & Hc). apply elem_of_list_In in Hin; apply elem_of_list_In in Hc.
    assert (k' = k). { cbn [fst snd] in Hin. destruct c' as [x|b dt|b ms']; [apply elem_of_list_singleton in Hin; congruence|apply elem_of_list_singleton in Hin; congruence|]. apply elem_of_list_fmap in Hin as ([? ?] & ? & _). congruence. }
    subst. apply Nk. apply elem_of_list_fmap. by exists (k, c').
  - apply IHm; [done|]. intros k' c' Hin. apply (Hm k'). by right.
Qed.
Definition total {A} (f : A -> Z) (l : list A) : Z := fold_right Z.add 0%Z (map f l).
Lemma total_app {A} (f : A -> Z) l l' : total f (l ++ l') = (total f l + total f l')%Z.
Proof. unfold total. induction l as [|a l IH]; simpl; [done|]. rewrite IH. lia. Qed.
Lemma total_perm {A} (f : A -> Z) l l' : l ≡ₚ l' -> total f l = total f l'.
Proof. unfold total. induction 1; simpl; lia. Qed.
Lemma storage_total bytes f : storage bytes f = total (fun q => bytes q.2) (datasets f).
Proof.
  induction f as [x|a dt|a ms IH] using node_rect'; [done|done|]. cbn [storage datasets]. induction ms as [|[k c] ms IHm]; [done|]. inversion IH as [|? ? Hc IH']; subst. specialize (IHm IH'). cbn [map fold_right concat fst snd] in *. rewrite total_app, <-IHm. f_equal.
  destruct c as [x|b dt|b ms']; [unfold total; simpl; lia|unfold total; simpl; lia|]. rewrite Hc. unfold total. by rewrite map_map.
Qed.
Lemma freespace_ok space bytes f ps : distinct_names f -> NoDup ps.*1 -> (forall p n, (p, n) ∈ ps <-> dataset_at f p n) ->
  (io_freespace space bytes f + fold_right Z.add 0 (map (fun q => bytes q.2) ps))%Z = space f.
Proof.
  intros Hd Hn Hp. unfold io_freespace. rewrite storage_total. assert (E : total (fun q : list string * node => bytes q.2) (datasets f) = total (fun q => bytes q.2) ps).
  { apply total_perm, NoDup_Permutation; [by eapply NoDup_fmap_1, datasets_nodup|by eapply NoDup_fmap_1|]. intros [p n]. by rewrite Hp, datasets_elem. }
  rewrite E. unfold total. lia.
Qed.
Lemma freespace_paths f : distinct_names f -> exists ps : list (list string * node), NoDup ps.*1 /\ (forall p n, (p, n) ∈ ps <-> dataset_at f p n).
Proof. intros H. exists (datasets f). split; [by apply datasets_nodup|by apply datasets_elem]. Qed.
