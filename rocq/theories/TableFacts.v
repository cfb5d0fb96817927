(** Proofs about tables and wrapped text. *)
From Verif Require Export Table CsvFacts YahooFacts ArchiveFacts.

(** * Splitting *)
Lemma split_at_nonempty d t : split_at d t <> [].
Proof. exact (splits_nonempty _ _ _ (splits_split_at d t)). Qed.
Lemma split_at_no d t p : p ∈ split_at d t -> d ∉ p.
Proof.
  pose proof (splits_split_at d t) as H. induction H as [t Ht|t rest ts Ht Hs IH].
  - by intros ->%elem_of_list_singleton.
  - intros [-> |Hp]%elem_of_cons; auto.
Qed.
Lemma split_at_app d a b xs x y ys : split_at d a = xs ++ [x] -> split_at d b = y :: ys ->
  split_at d (a ++ b) = xs ++ (x ++ y) :: ys.
Proof.
  revert xs x. induction a as [|c a IH]; intros xs x Ha Hb.
  - cbn in Ha. destruct xs as [|? [|]]; [|done..]. injection Ha as <-. done.
  - cbn in Ha |- *. destruct (decide (c = d)) as [->|Hc].
    + destruct xs as [|z xs]; cbn in Ha; injection Ha as <- Ha.
      { by destruct (split_at_nonempty d a). }
      cbn. f_equal. by apply IH.
    + destruct (split_at d a) as [|p ps] eqn:E; [by destruct (split_at_nonempty d a)|].
      destruct xs as [|z xs]; cbn in Ha; injection Ha as <- ->.
      * rewrite (IH [] p eq_refl Hb). done.
      * rewrite (IH (p :: xs) x eq_refl Hb). done.
Qed.
Lemma split_at_sep d a b : split_at d (a ++ d :: b) = split_at d a ++ split_at d b.
Proof.
  induction a as [|c a IH]; cbn; [by rewrite decide_True|]. destruct (decide (c = d)); [by rewrite IH|].
  rewrite IH. destruct (split_at d a) as [|p ps] eqn:E; [by destruct (split_at_nonempty d a)|]. done.
Qed.
Lemma split_last d t : exists xs, split_at d t = xs ++ [default [] (last (split_at d t))].
Proof.
  pose proof (split_at_nonempty d t) as Hn. destruct (split_at d t) as [|p ps _] using rev_ind; [done|]. exists ps. by rewrite last_snoc.
Qed.
Lemma split_first d t : exists ys, split_at d t = default [] (head (split_at d t)) :: ys.
Proof. pose proof (split_at_nonempty d t) as Hn. destruct (split_at d t) as [|p ps]; [done|]. by exists ps. Qed.
Lemma join_split d t : join_with [d] (split_at d t) = t.
Proof.
  induction t as [|c t IH]; [done|]. cbn. destruct (decide (c = d)) as [->|].
  - destruct (split_at d t) as [|p ps] eqn:E; [by destruct (split_at_nonempty d t)|]. cbn [join_with app]. f_equal. by rewrite <-IH.
  - destruct (split_at d t) as [|p ps] eqn:E; [by destruct (split_at_nonempty d t)|]. destruct ps as [|q ps]; cbn in *; by rewrite IH.
Qed.

(** * Wrapping on spaces *)
Lemma breaks_refl t : breaks_of t t.
Proof. apply Forall_Forall2_diag, Forall_forall. by left. Qed.
Lemma wrap_word_breaks w line0 line word : breaks_of line0 line -> breaks_of (line0 ++ sp :: word) (wrap_word w line word).
Proof.
  intros H. unfold wrap_word. apply Forall2_app; [done|]. constructor; [|apply breaks_refl].
  destruct (decide _); [by right|by left].
Qed.
Lemma join_cons (x : text) words d : words <> [] -> join_with d (x :: words) = x ++ d ++ join_with d words.
Proof. by destruct words. Qed.
Lemma wrap_words_breaks w words line0 line : breaks_of line0 line ->
  breaks_of (join_with [sp] (line0 :: words)) (fold_left (wrap_word w) words line).
Proof.
  revert line0 line. induction words as [|x words IH]; intros line0 line H; [exact H|].
  cbn [fold_left]. rewrite join_cons by done. 
  specialize (IH (line0 ++ sp :: x) (wrap_word w line x) (wrap_word_breaks _ _ _ _ H)).
  destruct words as [|x' words]; [exact IH|]. rewrite join_cons in IH by done. rewrite join_cons by done.
  rewrite <-app_assoc in IH. exact IH.
Qed.
Lemma onspace_breaks t w : breaks_of t (wrap_onspace t w).
Proof.
  unfold wrap_onspace. pose proof (join_split sp t) as Hj. destruct (split_at sp t) as [|x words] eqn:E; [by destruct (split_at_nonempty sp t)|].
  rewrite <-Hj. apply wrap_words_breaks, breaks_refl.
Qed.

Definition line_ok (w : nat) (l : text) : Prop := sp ∉ l \/ length l <= w.
Lemma wrap_word_lines (ok : text -> Prop) w line x :
  (forall a b, ok a -> ok b -> length a + length b < w -> ok (a ++ sp :: b)) ->
  Forall ok (split_at nl line) -> Forall ok (split_at nl x) -> Forall ok (split_at nl (wrap_word w line x)).
Proof.
  intros Hok Hl Hx. unfold wrap_word. destruct (decide _) as [|Hlt].
  - cbn. rewrite split_at_sep. by apply Forall_app.
  - destruct (split_last nl line) as [xs Hxs]. destruct (split_first nl x) as [ys Hys].
    fold (last_line line) in Hxs. fold (first_line x) in Hys.
    assert (Hs : split_at nl ([sp] ++ x) = (sp :: first_line x) :: ys).
    { exact (split_at_app nl [sp] x [] [sp] (first_line x) ys eq_refl Hys). }
    rewrite (split_at_app nl line ([sp] ++ x) _ _ _ _ Hxs Hs). rewrite Hxs in Hl. rewrite Hys in Hx.
    apply Forall_app in Hl as [Hl Hll]. pose proof (proj1 (Forall_singleton _ _) Hll). apply Forall_cons in Hx as [Hf Hx].
    apply Forall_app. split; [done|]. constructor; [|done]. apply Hok; [done..|]. lia.
Qed.
Lemma onspace_lines_gen (ok : text -> Prop) t w :
  (forall a b, ok a -> ok b -> length a + length b < w -> ok (a ++ sp :: b)) ->
  Forall (fun x => Forall ok (split_at nl x)) (split_at sp t) -> Forall ok (split_at nl (wrap_onspace t w)).
Proof.
  intros Hok. unfold wrap_onspace. pose proof (split_at_nonempty sp t) as Hn. destruct (split_at sp t) as [|x words]; [done|].
  intros [Hx Hw]%Forall_cons. clear Hn. revert x Hx. induction Hw as [|y words Hy Hw IH]; intros x Hx; [done|].
  cbn [fold_left]. apply IH. by apply wrap_word_lines.
Qed.
Lemma onspace_lines t w ls : splits nl (wrap_onspace t w) ls -> Forall (line_ok w) ls.
Proof.
  intros <-%split_at_splits. apply onspace_lines_gen.
  - intros a b _ _ Hlt. right. rewrite app_length. cbn. lia.
  - apply Forall_forall. intros x Hx%split_at_no. apply Forall_forall. intros l Hl. left. intros Hsp. apply Hx.
    rewrite <-(join_split nl x). clear Hx. revert Hl. induction (split_at nl x) as [|p ps IH]; [by intros ?%elem_of_nil|].
    intros [-> |Hl]%elem_of_cons.
    + destruct ps; [done|]. cbn [join_with]. apply elem_of_app. by left.
    + destruct ps; [by apply elem_of_nil in Hl|]. cbn [join_with]. apply elem_of_app. right. right. by apply IH.
Qed.
Lemma wrap_word_fits w line x : length (last_line line) + length (first_line x) < w -> wrap_word w line x = line ++ sp :: x.
Proof. intros H. unfold wrap_word. by rewrite decide_False by lia. Qed.
Lemma split_at_prefix (ok : text -> Prop) d a b : (forall x y, ok (x ++ y) -> ok x) ->
  Forall ok (split_at d (a ++ b)) -> Forall ok (split_at d a).
Proof.
  intros Hok. destruct (split_last d a) as [xs Hxs]. destruct (split_first d b) as [ys Hys].
  rewrite (split_at_app d a b _ _ _ _ Hxs Hys). rewrite Hxs at 2. intros [H1 [H2 _]%Forall_cons]%Forall_app.
  apply Forall_app. split; [done|]. constructor; [|done]. by eapply Hok.
Qed.
Lemma onspace_fits t w ls : splits nl t ls -> Forall (fun l => length l <= w) ls -> wrap_onspace t w = t.
Proof.
  intros <-%split_at_splits Hf. unfold wrap_onspace. pose proof (join_split sp t) as Hj.
  pose proof (split_at_nonempty sp t) as Hn. destruct (split_at sp t) as [|x words]; [done|]. clear Hn. subst t. revert x Hf.
  induction words as [|y words IH]; intros x Hf; [done|]. cbn [fold_left]. rewrite join_cons in * by done.
  assert (Ht : x ++ [sp] ++ join_with [sp] (y :: words) = join_with [sp] ((x ++ sp :: y) :: words)).
  { destruct words as [|z words]; [done|]. rewrite (join_cons y), (join_cons (x ++ sp :: y)) by done. by rewrite <-app_assoc. }
  rewrite Ht in Hf |- *. rewrite wrap_word_fits; [by apply IH|].
  assert (Hf' : Forall (fun l => length l <= w) (split_at nl (x ++ sp :: y))).
  { destruct words as [|z words]; [exact Hf|]. rewrite join_cons in Hf by done. eapply split_at_prefix; [|exact Hf].
    intros a b. rewrite app_length. lia. }
  destruct (split_last nl x) as [xs Hxs]. destruct (split_first nl y) as [ys Hys].
  fold (last_line x) in Hxs. fold (first_line y) in Hys.
  assert (Hs : split_at nl ([sp] ++ y) = (sp :: first_line y) :: ys).
  { exact (split_at_app nl [sp] y [] [sp] (first_line y) ys eq_refl Hys). }
  change (x ++ sp :: y) with (x ++ [sp] ++ y) in Hf'. rewrite (split_at_app nl x ([sp] ++ y) _ _ _ _ Hxs Hs) in Hf'.
  apply Forall_app in Hf' as [_ [Hl _]%Forall_cons]. rewrite app_length in Hl. cbn in Hl. lia.
Qed.

(** * Cutting *)
Lemma cut_pieces w n t : 0 < w -> n = (length t + (w - 1)) / w ->
  cut_in w t ((fun i => take (w * (i + 1) - w * i) (drop (w * i) t)) <$> seq 0 n).
Proof.
  intros Hw Hn. assert (Hd : w * n < length t + w /\ length t <= w * n).
  { subst n. pose proof (Nat.div_mod (length t + (w - 1)) w). pose proof (Nat.mod_upper_bound (length t + (w - 1)) w). lia. }
  split.
  - assert (Hc : forall m, m <= n -> concat ((fun i => take (w * (i + 1) - w * i) (drop (w * i) t)) <$> seq 0 m) = take (w * m) t).
    { induction m as [|m IH]; intros Hm; [by rewrite Nat.mul_0_r|]. rewrite seq_S, fmap_app, concat_app, IH by lia. cbn. rewrite app_nil_r.
      replace (w * (m + 1) - w * m) with w by lia. rewrite <-(take_drop (w * m) t) at 3. rewrite take_app_ge by (rewrite take_length; lia).
      f_equal. f_equal. rewrite take_length. nia. }
    rewrite (Hc n) by lia. apply take_ge. lia.
  - intros i p Hi. rewrite fmap_length, seq_length. apply list_lookup_fmap_inv in Hi as (j & -> & [-> Hj]%lookup_seq). cbn in Hj |- *.
    replace (w * (i + 1) - w * i) with w by lia. rewrite take_length, drop_length. split; nia.
Qed.
Lemma always_spec t width : exists ps, cut_in (Pos.to_nat width) t ps /\ wrap_always t width = join_with [nl] ps.
Proof. eexists. split; [apply (cut_pieces (Pos.to_nat width)); [lia|reflexivity]|done]. Qed.
Lemma elem_of_concat {A} (x : A) (ps : list (list A)) p : x ∈ p -> p ∈ ps -> x ∈ concat ps.
Proof.
  intros Hx. induction ps as [|q ps IH]; [by intros ?%elem_of_nil|]. intros [-> |H]%elem_of_cons; cbn; apply elem_of_app; [by left|right; auto].
Qed.
Lemma beside_join d cs : cs <> [] -> beside d cs (join_with d cs).
Proof.
  induction cs as [|c cs IH]; [done|]. intros _. destruct cs as [|c' cs]; [constructor|].
  rewrite join_cons by done. constructor. by apply IH.
Qed.
Lemma always_text t width : exists ps, cut_in (Pos.to_nat width) t ps /\
  (ps = [] /\ wrap_always t width = [] \/ beside [nl] ps (wrap_always t width)).
Proof.
  destruct (always_spec t width) as (ps & Hc & ->). exists ps. split; [done|].
  destruct ps; [by left|]. right. by apply beside_join.
Qed.

Lemma shown_app a b : shown (a ++ b) = shown a ++ shown b.
Proof. apply filter_app. Qed.
Lemma shown_white c : white c -> shown [c] = [].
Proof. intros H. unfold shown, filter. cbn. by destruct (decide (~ white c)). Qed.
Lemma breaks_shown t t' : breaks_of t t' -> shown t = shown t'.
Proof.
  induction 1 as [|c c' t t' Hc Ht IH]; [done|]. change (c :: t) with ([c] ++ t). change (c' :: t') with ([c'] ++ t').
  rewrite !shown_app, IH. f_equal. destruct Hc as [-> |[-> ->]]; [done|]. rewrite !shown_white; [done|by right; left|by left].
Qed.
Lemma shown_join ps : shown (join_with [nl] ps) = shown (concat ps).
Proof.
  induction ps as [|p ps IH]; [done|]. destruct ps as [|q ps]; [cbn; by rewrite app_nil_r|].
  rewrite join_cons by done. change (concat (p :: q :: ps)) with (p ++ concat (q :: ps)). by rewrite !shown_app, IH.
Qed.
Lemma always_shown t width : shown (wrap_always t width) = shown t.
Proof. destruct (always_spec t width) as (ps & [Hc _] & ->). by rewrite shown_join, Hc. Qed.
Lemma cut_runs_shown width t run : shown (cut_runs width run t) = shown (run ++ t).
Proof.
  assert (Hr : forall r, shown (cut_run width r) = shown r).
  { intros r. unfold cut_run. destruct (decide _); [apply always_shown|done]. }
  revert run. induction t as [|c t IH]; intros run; cbn [cut_runs]; [by rewrite Hr, app_nil_r|].
  destruct (decide (white c)).
  - change (c :: cut_runs width [] t) with ([c] ++ cut_runs width [] t). change (c :: t) with ([c] ++ t). by rewrite !shown_app, Hr, IH.
  - rewrite IH. by rewrite <-app_assoc.
Qed.
Lemma onspace_shown t w : shown (wrap_onspace t w) = shown t.
Proof. symmetry. apply breaks_shown, onspace_breaks. Qed.
Lemma strict_shown t width : shown (wrap_onspace_strict t width) = shown t.
Proof. unfold wrap_onspace_strict. rewrite onspace_shown. by rewrite cut_runs_shown. Qed.

Definition words_ok (w : nat) (t : text) : Prop := Forall (fun x => Forall (fun l => length l <= w) (split_at nl x)) (split_at sp t).
Lemma words_ok_sp w a b : words_ok w a -> words_ok w b -> words_ok w (a ++ sp :: b).
Proof. intros Ha Hb. unfold words_ok. rewrite split_at_sep. by apply Forall_app. Qed.
Lemma words_ok_nl w a b : words_ok w a -> words_ok w b -> words_ok w (a ++ nl :: b).
Proof.
  unfold words_ok. intros Ha Hb. destruct (split_last sp a) as [xs Hxs]. destruct (split_first sp b) as [ys Hys].
  rewrite Hxs in Ha. rewrite Hys in Hb. set (x := default [] (last (split_at sp a))) in *. set (y := default [] (head (split_at sp b))) in *.
  assert (Hs : split_at sp ([nl] ++ b) = (nl :: y) :: ys).
  { exact (split_at_app sp [nl] b [] [nl] y ys eq_refl Hys). }
  change (a ++ nl :: b) with (a ++ [nl] ++ b). rewrite (split_at_app sp a ([nl] ++ b) _ _ _ _ Hxs Hs).
  apply Forall_app in Ha as [Ha Ha']. pose proof (proj1 (Forall_singleton _ _) Ha') as Ha''. cbn beta in Ha''. apply Forall_cons in Hb as [Hb' Hb].
  apply Forall_app. split; [done|]. constructor; [|done]. rewrite split_at_sep. by apply Forall_app.
Qed.
Lemma words_ok_bare w t : sp ∉ t -> nl ∉ t -> length t <= w -> words_ok w t.
Proof. intros Hs Hn Hl. unfold words_ok. rewrite split_at_bare by done. constructor; [|done]. rewrite split_at_bare by done. by constructor. Qed.
Lemma cut_run_ok width run : sp ∉ run -> nl ∉ run -> words_ok (Pos.to_nat width) (cut_run width run).
Proof.
  intros Hs Hn. unfold cut_run. destruct (decide _); [|apply words_ok_bare; [done..|lia]].
  destruct (always_spec run width) as (ps & [Hc Hp] & ->).
  assert (H : forall p, p ∈ ps -> words_ok (Pos.to_nat width) p).
  { intros p [i Hi]%elem_of_list_lookup. apply words_ok_bare.
    - intros Hin. apply Hs. rewrite <-Hc. apply (elem_of_concat _ _ p); [done|by eapply elem_of_list_lookup_2].
    - intros Hin. apply Hn. rewrite <-Hc. apply (elem_of_concat _ _ p); [done|by eapply elem_of_list_lookup_2].
    - apply (Hp i p Hi). }
  clear Hc Hp. induction ps as [|p ps IH]; [apply words_ok_bare; [by apply not_elem_of_nil..|cbn; lia]|].
  destruct ps as [|q ps]; [apply H; by left|]. rewrite join_cons by done. apply words_ok_nl; [apply H; by left|]. apply IH. intros r Hr. apply H. by right.
Qed.
Lemma cut_runs_ok width t run : (forall c, c ∈ t -> white c -> c = sp \/ c = nl) -> sp ∉ run -> nl ∉ run ->
  words_ok (Pos.to_nat width) (cut_runs width run t).
Proof.
  revert run. induction t as [|c t IH]; intros run Hw Hs Hn; cbn [cut_runs]; [by apply cut_run_ok|].
  assert (Hw' : forall c, c ∈ t -> white c -> c = sp \/ c = nl) by (intros; apply Hw; [by right|done]).
  destruct (decide (white c)) as [Hc|Hc].
  - assert (Ht : words_ok (Pos.to_nat width) (cut_runs width [] t)) by (apply IH; [done|by apply not_elem_of_nil..]).
    pose proof (cut_run_ok width run Hs Hn) as Hr. destruct (Hw c) as [-> | ->]; [by left|done|by apply words_ok_sp|by apply words_ok_nl].
  - apply IH; [done| |]; apply not_elem_of_app; (split; [done|]); intros <-%elem_of_list_singleton; apply Hc; [by left|by right; left].
Qed.
Lemma strict_lines t width ls : (forall c, c ∈ t -> white c -> c = sp \/ c = nl) ->
  splits nl (wrap_onspace_strict t width) ls -> Forall (fun l => length l <= Pos.to_nat width) ls.
Proof.
  intros Hw <-%split_at_splits. apply onspace_lines_gen.
  - intros a b _ _ Hlt. rewrite app_length. cbn. lia.
  - apply cut_runs_ok; [done|by apply not_elem_of_nil..].
Qed.

(** * Tables *)
Lemma justify_field j s w : length s <= w -> in_field j w s (justify_text j s w).
Proof.
  intros Hl. unfold in_field, justify_text. set (pad := w - length s).
  assert (Hp : pad + length s = w) by (unfold pad; lia). clearbody pad.
  set (left := match j with ToLeft => 0 | ToRight => pad | ToCenter => _ end).
  assert (Hleft : left <= pad /\ match j with ToLeft => left = 0 | ToRight => pad - left = 0 | ToCenter => left <= S (pad - left) /\ pad - left <= S left end).
  { unfold left. destruct j; [split; lia..|]. pose proof (Nat.div2_odd pad) as Hd. destruct (Nat.odd pad); cbn in Hd |- *; [destruct (Nat.odd w)|]; lia. }
  split; [rewrite !app_length, !replicate_length; lia|]. exists left, (pad - left). split; [done|]. tauto.
Qed.
Lemma longest_length {A} (ls : list (list A)) : length (longest ls) = max_list (length <$> ls).
Proof. unfold longest. by rewrite fmap_length, seq_length. Qed.
Lemma longest_lookup {A} (ls : list (list A)) i col : longest ls !! i = Some col -> col = (fun l => l !! i) <$> ls.
Proof. unfold longest. intros (j & -> & [-> _]%lookup_seq)%list_lookup_fmap_inv. done. Qed.
Lemma max_list_le l x : x ∈ l -> x <= max_list l.
Proof. induction l as [|y l IH]; [by intros ?%elem_of_nil|]. intros [-> |H]%elem_of_cons; cbn; [lia|]. specialize (IH H). lia. Qed.
Lemma max_list_in l : l <> [] -> max_list l ∈ l.
Proof.
  induction l as [|y l IH]; [done|]. intros _. cbn. destruct l as [|z l]; [cbn; rewrite Nat.max_0_r; by left|].
  destruct (Nat.max_spec y (max_list (z :: l))) as [[_ ->]|[_ ->]]; [right; by apply IH|by left].
Qed.

(** The lines of a row, before they are put in fields. *)
Lemma row_wrapper_two wrap row : 1 < length row -> exists phys, row_wrapper wrap row = Ok phys /\
  phys <> [] /\ Forall (fun r => length r = length row) phys /\
  exists pieces, Forall2 (fun t => splits nl (wrap t)) row pieces /\
    Forall (fun ps : list text => length ps <= length phys) pieces /\ (exists ps, ps ∈ pieces /\ length ps = length phys) /\
    forall i r, phys !! i = Some r -> r = (fun ps => default [] (ps !! i)) <$> pieces.
Proof.
  intros Hl. destruct row as [|t1 [|t2 row]]; [cbn in Hl; lia..|]. set (row' := t1 :: t2 :: row) in *.
  set (pieces := (fun item : text => split_at nl (wrap item)) <$> row').
  eexists. split; [reflexivity|]. fold pieces.
  assert (Hlen : forall f : list (option text) -> list text, length (f <$> longest pieces) = max_list (length <$> pieces)).
  { intros f. by rewrite fmap_length, longest_length. }
  assert (Hin : max_list (length <$> pieces) ∈ length <$> pieces) by (apply max_list_in; done).
  split_and!.
  - intros H%(f_equal length). rewrite Hlen in H. apply elem_of_list_fmap in Hin as (ps & E & Hps).
    unfold pieces in Hps. apply elem_of_list_fmap in Hps as (t & -> & _). pose proof (split_at_nonempty nl (wrap t)). cbn [length] in H.
    rewrite H in E. by destruct (split_at nl (wrap t)).
  - apply Forall_forall. intros r (col & -> & Hcol)%elem_of_list_fmap. apply elem_of_list_lookup in Hcol as [i Hi].
    apply longest_lookup in Hi as ->. unfold pieces. by rewrite !fmap_length.
  - exists pieces. split_and!.
    + unfold pieces. apply Forall2_fmap_r, Forall_Forall2_diag, Forall_forall. intros t _. apply splits_split_at.
    + apply Forall_forall. intros ps Hps. rewrite Hlen. apply max_list_le. by apply elem_of_list_fmap_1.
    + apply elem_of_list_fmap in Hin as (ps & E & Hps). exists ps. by rewrite Hlen.
    + intros i r Hi. apply list_lookup_fmap_inv in Hi as (col & -> & Hcol). apply longest_lookup in Hcol as ->. by rewrite <-list_fmap_compose.
Qed.

Definition wrapped (wrap : text -> text) (row : list text) (phys : list (list text)) : Prop :=
  phys <> [] /\ Forall (fun r => length r = length row) phys /\
  exists pieces, Forall2 (fun t => splits nl (wrap t)) row pieces /\
    Forall (fun ps : list text => length ps <= length phys) pieces /\ (exists ps, ps ∈ pieces /\ length ps = length phys) /\
    forall i r, phys !! i = Some r -> r = (fun ps => default [] (ps !! i)) <$> pieces.
Lemma wrap_rows wrap rows : Forall (fun row => 1 < length row) rows -> exists logical,
  mapR (row_wrapper wrap) rows = Ok logical /\ Forall2 (wrapped wrap) rows logical.
Proof.
  induction 1 as [|row rows Hr Hrs (logical & IH & IH')]; [by exists []|].
  destruct (row_wrapper_two wrap row Hr) as (phys & E & H). exists (phys :: logical). cbn. rewrite E. cbn. rewrite IH. cbn. split; [done|].
  by constructor.
Qed.
Lemma splits_fun d t ps qs : splits d t ps -> splits d t qs -> ps = qs.
Proof. intros H1%split_at_splits H2%split_at_splits. congruence. Qed.

Section table.
  Context (wrap : text -> text) (rows : list (list text)) (logical : list (list (list text))) (n : nat).
  Context (Hn : 1 < n) (Hrows : Forall (fun row => length row = n) rows) (Hlog : Forall2 (wrapped wrap) rows logical).
  Set Default Proof Using "All".

  Definition big (r : list text) (k : nat) : nat := from_option length 4 (r !! k).
  Lemma phys_length r : r ∈ concat logical -> length r = n.
  Proof.
    clear Hn. induction Hlog as [|row phys rows' logical' (Hne & Hl & _) H IH]; [by intros ?%elem_of_nil|].
    apply Forall_cons in Hrows as [Hr Hrows']. cbn. intros [Hin|Hin]%elem_of_app; [|by apply IH].
    rewrite Forall_forall in Hl. rewrite (Hl r Hin). done.
  Qed.
  Lemma widths_two : 1 < length (concat logical) -> exists ws, max_widths (concat logical) = Ok ws /\ length ws = n /\
    forall k w, ws !! k = Some w -> k < n /\ w = max_list ((fun r => big r k) <$> concat logical).
  Proof.
    intros H2. pose proof phys_length as Hl. revert H2 Hl. generalize (concat logical) as phys. intros phys H2 Hl.
    destruct phys as [|r1 [|r2 phys]]; [cbn in H2; lia..|]. set (phys' := r1 :: r2 :: phys) in *.
    eexists. split; [reflexivity|]. fold phys'.
    assert (Hmax : max_list (length <$> phys') = n).
    { assert (Hin : max_list (length <$> phys') ∈ length <$> phys') by (by apply max_list_in).
      apply elem_of_list_fmap in Hin as (r & -> & Hr). by apply Hl. }
    rewrite fmap_length, longest_length. split; [done|]. intros k w Hk.
    apply list_lookup_fmap_inv in Hk as (col & -> & Hcol). pose proof (lookup_lt_Some _ _ _ Hcol) as Hlt. rewrite longest_length in Hlt.
    split; [lia|]. apply longest_lookup in Hcol as ->. by rewrite <-list_fmap_compose.
  Qed.
  Lemma find_phys row : row ∈ rows -> exists phys, phys ∈ logical /\ wrapped wrap row phys.
  Proof.
    intros [i Hi]%elem_of_list_lookup. destruct (Forall2_lookup_l _ _ _ _ _ Hlog Hi) as (phys & Hp & Hw).
    exists phys. split; [by eapply elem_of_list_lookup_2|done].
  Qed.
  Lemma find_row phys : phys ∈ logical -> exists row, row ∈ rows /\ wrapped wrap row phys.
  Proof.
    intros [i Hi]%elem_of_list_lookup. destruct (Forall2_lookup_r _ _ _ _ _ Hlog Hi) as (row & Hp & Hw).
    exists row. split; [by eapply elem_of_list_lookup_2|done].
  Qed.
  Lemma width_column k : rows <> [] -> k < n ->
    column_width ((fun row : list text => wrap <$> row) <$> rows) k (max_list ((fun r => big r k) <$> concat logical)).
  Proof.
    intros Hne Hk. set (line := fun s => exists row t ps, row ∈ (fun row : list text => wrap <$> row) <$> rows /\ row !! k = Some t /\ splits nl t ps /\ s ∈ ps).
    assert (Hup : forall s, line s -> length s <= max_list ((fun r => big r k) <$> concat logical)).
    { intros s (row' & t' & ps & Hrow & Ht & Hs & Hin). apply elem_of_list_fmap in Hrow as (row & -> & Hrow).
      apply list_lookup_fmap_inv in Ht as (t & -> & Ht).
      destruct (find_phys row Hrow) as (phys & Hphys & _ & _ & pieces & Hp & Hle & _ & Hall).
      destruct (Forall2_lookup_l _ _ _ _ _ Hp Ht) as (ps' & Hps' & Hs'). assert (ps' = ps) as -> by (by eapply splits_fun).
      apply elem_of_list_lookup in Hin as [i Hi]. rewrite Forall_lookup in Hle. pose proof (Hle _ _ Hps') as Hlen.
      pose proof (lookup_lt_Some _ _ _ Hi) as Hlt. destruct (lookup_lt_is_Some_2 phys i) as [r Hr]; [lia|].
      pose proof (Hall i r Hr) as Er. apply max_list_le. apply elem_of_list_fmap. exists r. split.
      - unfold big. rewrite Er, list_lookup_fmap, Hps'. cbn. unfold text in *. by rewrite Hi.
      - eapply elem_of_concat; [|exact Hphys]. by eapply elem_of_list_lookup_2. }
    split; [exact Hup|].
    assert (Hc : (fun r => big r k) <$> concat logical <> []).
    { assert (Hrow0 : exists row, row ∈ rows). { clear -Hne. destruct rows as [|row rows']; [done|]. exists row. by left. }
      destruct Hrow0 as [row Hrow0]. destruct (find_phys row Hrow0) as (phys & Hphys & Hpne & _).
      destruct phys as [|r phys]; [done|]. intros Hf%fmap_nil_inv. assert (Hr : r ∈ concat logical); [|by rewrite Hf in Hr; apply elem_of_nil in Hr].
      eapply elem_of_concat; [|exact Hphys]. by left. }
    pose proof (max_list_in _ Hc) as Hin. apply elem_of_list_fmap in Hin as (r & Er & Hr).
    assert (Hex : exists phys i, phys ∈ logical /\ phys !! i = Some r).
    { clear -Hr. induction logical as [|p ps IH]; [by apply elem_of_nil in Hr|]. cbn in Hr. apply elem_of_app in Hr as [Hr|Hr].
      - apply elem_of_list_lookup in Hr as [i Hi]. exists p, i. split; [by left|done].
      - destruct (IH Hr) as (phys & i & H1 & H2). exists phys, i. split; [by right|done]. }
    destruct Hex as (phys & i & Hphys & Hi). destruct (find_row phys Hphys) as (row & Hrow & Hpne & Hl & pieces & Hp & Hle & _ & Hall).
    pose proof (Hall i r Hi) as E. rewrite Forall_forall in Hrows. pose proof (Hrows row Hrow) as Hlr.
    destruct (lookup_lt_is_Some_2 row k) as [t Ht]; [lia|]. destruct (Forall2_lookup_l _ _ _ _ _ Hp Ht) as (ps & Hps & Hs).
    assert (Hline : forall s, s ∈ ps -> line s).
    { intros s Hs'. exists (wrap <$> row), (wrap t), ps. split_and!; [by apply (elem_of_list_fmap_1 (fun row : list text => wrap <$> row))|by rewrite list_lookup_fmap, Ht|done..]. }
    unfold big in Er. rewrite E, list_lookup_fmap, Hps in Er. cbn in Er. destruct (ps !! i) as [s|] eqn:Ei; cbn in Er.
    - exists s. split; [|done]. apply Hline. by eapply elem_of_list_lookup_2.
    - destruct ps as [|s ps]; [by destruct (splits_nonempty _ _ _ Hs)|]. exists s. assert (Hs0 : line s) by (apply Hline; by left).
      split; [done|]. pose proof (Hup s Hs0) as Hu. unfold big in Hu |- *. rewrite Er in Hu |- *. cbn in Hu |- *. lia.
  Qed.

  Context (st : style) (ws : list nat).
  Lemma draw_lines_of bar hd : length ws = n ->
    (forall k w, ws !! k = Some w -> w = max_list ((fun r => big r k) <$> concat logical)) ->
    exists lines, table_lines st bar ws hd ((fun row : list text => wrap <$> row) <$> rows) lines /\
      draw_rows (draw_row (st_delim st) (st_prefix st) (st_postfix st) (st_justify st) ws) bar (st_separate st) hd logical =
      concat ((fun l => l ++ [nl]) <$> lines).
  Proof.
    intros Hws Hmax. assert (Hfit : forall r k w u, r ∈ concat logical -> ws !! k = Some w -> r !! k = Some u -> length u <= w).
    { intros r k w u Hr Hk Hu. rewrite (Hmax k w Hk). apply max_list_le, elem_of_list_fmap. exists r. split; [|done]. unfold big. by rewrite Hu. }
    clear Hmax. pose proof phys_length as Hlen. revert hd Hfit Hlen.
    induction Hlog as [|row phys rows' logical' (Hne & Hl & pieces & Hp & Hle & Hmaxp & Hall) H IH]; intros hd Hfit Hlen; [by exists []; split; [constructor|]|].
    apply Forall_cons in Hrows as [Hr Hrows'].
    destruct (IH Hrows' H false) as (rest & Hrest & Erest).
    { intros r k w u Hr'. apply Hfit. cbn. apply elem_of_app. by right. }
    { intros r Hr'. apply Hlen. cbn. apply elem_of_app. by right. }
    set (ln := fun r : list text => st_prefix st ++ join_with (st_delim st) (zip_with (justify_text (st_justify st)) r ws) ++ st_postfix st).
    exists ((ln <$> phys) ++ (if st_separate st || hd then [bar] else []) ++ rest). split.
    - cbn [fmap list_fmap]. constructor; [|exact Hrest]. exists pieces. split_and!.
      + apply Forall2_fmap_l. exact Hp.
      + rewrite fmap_length. exact Hle.
      + rewrite fmap_length. exact Hmaxp.
      + intros i line Hi. apply list_lookup_fmap_inv in Hi as (r & -> & Hi).
        assert (Hrin : r ∈ concat (phys :: logical')). { cbn. apply elem_of_app. left. by eapply elem_of_list_lookup_2. }
        rewrite <-(Hall i r Hi). exists (zip_with (justify_text (st_justify st)) r ws), (join_with (st_delim st) (zip_with (justify_text (st_justify st)) r ws)).
        assert (Hrn : length r = n) by (by apply Hlen).
        split_and!; [|apply beside_join|done].
        * assert (Hf : forall k w u, ws !! k = Some w -> r !! k = Some u -> length u <= w) by (intros k w u; by apply Hfit).
          assert (Hlw : length r = length ws) by lia. clear -Hf Hlw. revert ws Hf Hlw.
          induction r as [|u r IHr]; intros [|w ws] Hf Hlw; [constructor|done..|]. cbn. constructor.
          { apply justify_field. by apply (Hf 0). }
          { apply IHr; [|by injection Hlw]. intros k. apply (Hf (S k)). }
        * intros E%(f_equal length). rewrite zip_with_length in E. cbn in E. lia.
    - cbn [draw_rows]. rewrite Erest, !fmap_app, !concat_app. f_equal.
      + rewrite <-list_fmap_compose. done.
      + f_equal. destruct (st_separate st || hd); [|done]. cbn. by rewrite app_nil_r.
  Qed.
End table.

Lemma style_bar st ws : ws <> [] ->
  times (st_char st) (Z.of_nat (length (st_prefix st) + length (st_postfix st) + sum_list ws) +
                      Z.of_nat (length (st_delim st)) * (Z.of_nat (length ws) - 1)) =
  concat (replicate (table_width st ws) (st_char st)).
Proof.
  intros Hne. unfold times, table_width. do 2 f_equal. assert (0 < length ws) by (destruct ws; [done|cbn; lia]).
  replace (Z.of_nat (length ws) - 1)%Z with (Z.of_nat (length ws - 1)) by lia. rewrite <-Nat2Z.inj_mul, <-Nat2Z.inj_add. apply Nat2Z.id.
Qed.
(** The names of the justifications. *)
Lemma lower_case c u : 97 <= nat_of_ascii c <= 122 -> either_case c u <-> lower_char u = c.
Proof.
  intros Hc. unfold lower_char, either_case. destruct ((65 <=? nat_of_ascii u)%nat && (nat_of_ascii u <=? 90)%nat) eqn:E.
  - apply andb_true_iff in E as [E1 E2]. apply Nat.leb_le in E1, E2. split.
    + intros [->|H]; [lia|]. rewrite <-H. apply ascii_nat_embedding.
    + intros <-. right. apply nat_ascii_embedding. lia.
  - split; [|by left]. intros [->|H]; [done|]. apply andb_false_iff in E as [E|E]; apply Nat.leb_gt in E; lia.
Qed.
Lemma names_lower s j : names_justification s j <-> lower_char <$> letters s = letters (justification_name j).
Proof.
  unfold names_justification. assert (H : Forall (fun c => 97 <= nat_of_ascii c <= 122) (letters (justification_name j))).
  { destruct j; repeat constructor; vm_compute; lia. }
  revert H. generalize (letters (justification_name j)) as cs. generalize (letters s) as us. intros us. induction us as [|u us IH]; intros cs H.
  - split; [by intros ->%Forall2_nil_inv_r|]. cbn. intros <-. constructor.
  - split.
    + intros (c & cs' & Hc & Hcs & ->)%Forall2_cons_inv_r. apply Forall_cons in H as [H1 H2]. cbn. f_equal; [by apply lower_case|]. by apply IH.
    + destruct cs as [|c cs]; [done|]. intros E. cbn in E. apply (f_equal head) in E as E1. apply (f_equal tail) in E as E2. cbn in E1, E2.
      apply (inj Some) in E1. apply Forall_cons in H as [H1 H2]. constructor; [by apply lower_case|]. by apply IH.
Qed.
Lemma justify_names s j : justify_of s = Ok j <-> names_justification s j.
Proof.
  rewrite names_lower. unfold justify_of. set (t := lower_char <$> letters s).
  assert (Ht : forall w, word t = w <-> t = letters w).
  { intros w. split; [intros <-; by rewrite letters_word|intros ->; apply word_letters]. }
  cbn zeta. rewrite <-Ht. clearbody t. clear Ht. generalize (word t) as w. intros w. repeat case_decide; subst; destruct j; cbn [justification_name]; split; intros E; try done; congruence.
Qed.
Lemma indent_no_name rows header char delim justify separate prefix postfix wrap t :
  indent rows header char delim justify separate prefix postfix wrap = Ok t -> exists j, names_justification justify j.
Proof.
  unfold indent. intros H. apply bind_ok in H as (logical & _ & H). apply bind_ok in H as (ws & _ & H). cbn zeta in H.
  apply bind_ok in H as (j & H & _). exists j. by apply justify_names.
Qed.
Lemma indent_drawn st justify wrap rows n : 1 < n -> Forall (fun row => length row = n) rows -> rows <> [] ->
  (1 < length rows \/ exists row t, row ∈ rows /\ t ∈ row /\ nl ∈ wrap t) -> names_justification justify (st_justify st) ->
  exists t, indent rows (st_header st) (st_char st) (st_delim st) justify (st_separate st) (st_prefix st) (st_postfix st) wrap = Ok t /\
    drawn st ((fun row : list text => wrap <$> row) <$> rows) t.
Proof.
  rewrite <-justify_names. intros Hn Hrows Hne Hmany Hj. destruct (wrap_rows wrap rows) as (logical & El & Hlog).
  { eapply Forall_impl; [exact Hrows|]. intros row ->. done. }
  assert (H2 : 1 < length (concat logical)).
  { assert (Hge : length rows <= length (concat logical)).
    { clear -Hlog. induction Hlog as [|row phys rows logical (Hp & _) H IH]; [done|]. cbn. rewrite app_length. destruct phys; [done|]. cbn. lia. }
    destruct Hmany as [Hm|(row & t & Hrow & Ht & Hnl)]; [lia|].
    destruct (find_phys wrap rows logical n Hn Hrows Hlog row Hrow) as (phys & Hphys & _ & _ & pieces & Hp & Hle & _).
    assert (Hlp : length phys <= length (concat logical)).
    { clear -Hphys. induction logical as [|p ps IH]; [by apply elem_of_nil in Hphys|]. cbn. rewrite app_length. apply elem_of_cons in Hphys as [-> |Hin]; [lia|]. specialize (IH Hin). lia. }
    apply elem_of_list_lookup in Ht as [k Hk]. destruct (Forall2_lookup_l _ _ _ _ _ Hp Hk) as (ps & Hps & Hs).
    rewrite Forall_lookup in Hle. pose proof (Hle _ _ Hps) as Hl.
    inversion Hs as [t' Hno|t' rest ts Hno Hs' E1 E2]; [by subst|]. subst ps. pose proof (splits_nonempty _ _ _ Hs'). destruct ts; [done|]. cbn in Hl. lia. }
  destruct (widths_two wrap rows logical n Hn Hrows Hlog H2) as (ws & Ew & Hlw & Hmax).
  assert (Hwne : ws <> []) by (intros ->; cbn in Hlw; lia).
  destruct (draw_lines_of wrap rows logical n Hn Hrows Hlog st ws (concat (replicate (table_width st ws) (st_char st))) (st_header st) Hlw) as (lines & Hlines & Ed).
  { intros k w Hk. apply (Hmax k w Hk). }
  eexists. split.
  - unfold indent. rewrite El. cbn [mbind res_bind]. rewrite Ew. cbn [mbind res_bind]. rewrite Hj. cbn [mbind res_bind].
    rewrite (style_bar st ws Hwne), Ed. reflexivity.
  - exists ws, (concat (replicate (table_width st ws) (st_char st))), lines. split_and!.
    + intros row' (row & -> & Hrow)%elem_of_list_fmap. rewrite fmap_length, Hlw. rewrite Forall_forall in Hrows. by apply Hrows.
    + intros k w Hk. destruct (Hmax k w Hk) as [Hlt ->]. exact (width_column wrap rows logical n Hn Hrows Hlog k Hne Hlt).
    + done.
    + exact Hlines.
    + rewrite fmap_app, concat_app. f_equal. destruct (st_separate st); [|done]. cbn. by rewrite app_nil_r.
Qed.

(** The lines of a table are equally long. *)
Lemma beside_length d cs t : beside d cs t -> length t = sum_list (length <$> cs) + length d * (length cs - 1).
Proof.
  induction 1 as [c|c cs t H IH]; cbn; [lia|]. rewrite !app_length, IH. destruct cs as [|c' cs]; [inversion H|]. cbn. lia.
Qed.
Lemma fields_length j ws ss cs : Forall3 (in_field j) ws ss cs -> length <$> cs = ws.
Proof. induction 1 as [|w s c ws ss cs [Hl _] H IH]; [done|]. cbn. by rewrite Hl, IH. Qed.
Lemma row_line_length st ws ss line : row_line st ws ss line -> length line = table_width st ws.
Proof.
  intros (cs & mid & Hf & Hb & ->). rewrite !app_length, (beside_length _ _ _ Hb), (fields_length _ _ _ _ Hf). unfold table_width.
  replace (length cs) with (length ws) by (by rewrite <-(fields_length _ _ _ _ Hf), fmap_length). lia.
Qed.
Lemma replicate_sp_nl n : nl ∉ replicate n sp.
Proof. intros [H _]%elem_of_replicate. discriminate H. Qed.
Lemma row_line_no_nl st ws ss line : nl ∉ st_delim st -> nl ∉ st_prefix st -> nl ∉ st_postfix st -> (forall s, s ∈ ss -> nl ∉ s) ->
  row_line st ws ss line -> nl ∉ line.
Proof.
  intros Hd Hp Hq Hs (cs & mid & Hf & Hb & ->). rewrite !not_elem_of_app. split_and!; [done| |done].
  assert (Hc : forall c, c ∈ cs -> nl ∉ c).
  { clear Hb. induction Hf as [|w s c ws ss cs (Hl & a & b & -> & _) H IH]; [by intros ? ?%elem_of_nil|].
    intros c' [-> |Hc]%elem_of_cons.
    - rewrite !not_elem_of_app. split_and!; [apply replicate_sp_nl|apply Hs; by left|apply replicate_sp_nl].
    - apply IH; [|done]. intros s' Hs'. apply Hs. by right. }
  clear Hf. induction Hb as [c|c cs t Hb IH]; [apply Hc; by left|]. rewrite !not_elem_of_app. split_and!; [apply Hc; by left|done|].
  apply IH. intros c' Hc'. apply Hc. by right.
Qed.
Lemma drawn_lines st rows t : drawn st rows t -> length (st_char st) = 1 ->
  nl ∉ st_char st -> nl ∉ st_delim st -> nl ∉ st_prefix st -> nl ∉ st_postfix st ->
  exists w ls, has_lines t ls /\ Forall (fun l => length l = w) ls.
Proof.
  intros (ws & bar & lines & _ & _ & Ebar & Hl & ->) Hc Hn1 Hn2 Hn3 Hn4.
  assert (Hbar : length bar = table_width st ws /\ nl ∉ bar).
  { subst bar. generalize (table_width st ws) as k. induction k as [|k [IH1 IH2]]; cbn; [split; [done|by apply not_elem_of_nil]|].
    rewrite app_length, not_elem_of_app. split; [lia|done]. }
  assert (Hall : Forall (fun l => length l = table_width st ws /\ nl ∉ l) lines).
  { revert Hl. generalize (st_header st) as hd. intros hd Hl. induction Hl as [|hd row rows ls rest (pieces & Hp & _ & Hrow) Hr IH]; [done|].
    rewrite !Forall_app. split_and!; [|destruct (st_separate st || hd); [by constructor|done]|done].
    apply Forall_lookup. intros i line Hi. specialize (Hrow i line Hi). split; [by eapply row_line_length|].
    eapply row_line_no_nl; [done..| |exact Hrow]. intros s (ps & -> & Hps)%elem_of_list_fmap.
    apply elem_of_list_lookup in Hps as [k Hk]. destruct (Forall2_lookup_r _ _ _ _ _ Hp Hk) as (t & _ & Hs).
    destruct (ps !! i) as [s|] eqn:Ei; cbn; [|by apply not_elem_of_nil]. apply (split_at_no nl t). rewrite (split_at_splits _ _ _ Hs). by eapply elem_of_list_lookup_2. }
  exists (table_width st ws), ((if st_separate st then [bar] else []) ++ lines).
  assert (Hall' : Forall (fun l => length l = table_width st ws /\ nl ∉ l) ((if st_separate st then [bar] else []) ++ lines)).
  { apply Forall_app. split; [destruct (st_separate st); [by constructor|done]|done]. }
  split.
  - apply splits_lines. rewrite Forall_forall in Hall'. intros l Hl'. apply (Hall' l Hl').
  - eapply Forall_impl; [exact Hall'|]. by intros l [? _].
Qed.
Lemma not_drawn st rows t ls l1 l2 : length (st_char st) = 1 ->
  nl ∉ st_char st -> nl ∉ st_delim st -> nl ∉ st_prefix st -> nl ∉ st_postfix st ->
  split_at nl t = ls ++ [[]] -> l1 ∈ ls -> l2 ∈ ls -> length l1 <> length l2 -> ~ drawn st rows t.
Proof.
  intros H1 H2 H3 H4 H5 Es Hl1 Hl2 Hne Hd. destruct (drawn_lines st rows t Hd H1 H2 H3 H4 H5) as (w & ls' & Hls & Hw).
  apply split_at_splits in Hls. rewrite Es in Hls. apply app_inj_tail in Hls as [-> _]. rewrite Forall_forall in Hw.
  apply Hne. by rewrite (Hw l1 Hl1), (Hw l2 Hl2).
Qed.

(** * The table of an archive *)
Definition archive_style : style := Style (letters "-") (letters "  ") [] [] ToLeft true false.
Lemma load_x f k y : load f (Some k) = Ok y -> io_x f k = Ok (lx y).
Proof.
  unfold load, io_x. intros (n & -> & H)%bind_ok. cbn [mbind res_bind]. destruct (is_archived n); [|done].
  apply bind_ok in H as (label & _ & H). destruct n as [x|a dt|a ms]; [done..|]. destruct (dict_get ms "x"%string) as [[x|? ?|? ?]|]; [|done..].
  by apply make_some_ok in H as [-> _].
Qed.
Lemma labs_strs (ls : list lab) (ss : list string) : ls ≡ₚ LStr <$> ss -> exists ks, ls = LStr <$> ks /\ ks ≡ₚ ss.
Proof. intros H. apply Permutation_map_inv in H as (ks & -> & Hp). exists ks. split; [done|]. by symmetry. Qed.
Lemma repr_archive str_dtype str_shape os k0 y0 : Forall op_ok os ->
  let f := (io_run empty_file os).1 in
  let d := (dict_run (fun _ => None) os).1 in
  d k0 = Some y0 ->
  exists t ks rows, io_repr str_dtype str_shape f = Ok t /\
    StronglySorted lab_le (LStr <$> ks) /\ NoDup ks /\ (forall k, k ∈ ks <-> is_Some (d k)) /\
    Forall2 (fun k row => exists y, d k = Some y /\ row = [letters k; letters (str_dtype (ldtype y)); letters (str_shape (lshape y))]) ks rows /\
    drawn archive_style ((letters <$> ["larry"; "dtype"; "shape"]%string) :: rows) t.
Proof.
  intros Hos f d H0. destruct (archive_run os empty_file (fun _ => None) archive_empty Hos) as [_ Ha]. fold f d in Ha.
  destruct (archive_keys f d Ha) as (Hnd & Hfl & Hk).
  destruct (py_sorted_total (LStr <$> io_keys f)) as [ls Hls].
  { apply sortable_spec. intros a b (ka & -> & _)%elem_of_list_fmap (kb & -> & _)%elem_of_list_fmap. by right. }
  pose proof (py_sorted_ok _ _ Hls) as (_ & Hs & Hp). apply labs_strs in Hp as (ks & -> & Hp).
  assert (Hks : forall k, k ∈ ks <-> is_Some (d k)) by (intros k; by rewrite Hp, Hk).
  assert (Hrows : exists rows, mapR (fun k => match k with
                        | LStr key => x ← io_x f key;
                                      Ok [letters key; letters (str_dtype (nd_dtype x)); letters (str_shape (nd_shape x))]
                        | _ => Err TypeError
                        end) (LStr <$> ks) = Ok rows /\
    Forall2 (fun k row => exists y, d k = Some y /\ row = [letters k; letters (str_dtype (ldtype y)); letters (str_shape (lshape y))]) ks rows).
  { assert (Hall : Forall (fun k => k ∈ io_keys f) ks) by (apply Forall_forall; intros k; by rewrite Hp).
    clear -Hall Hk Hfl Ha. induction Hall as [|k ks Hin Hall (rows & E & HF)]; [by exists []|].
    apply Hfl in Hin as Hkf. destruct (archive_get f d k Ha Hkf) as (El & _). apply Hk in Hin as [y Hy]. rewrite Hy in El. apply load_x in El.
    cbn [fmap list_fmap mapR]. rewrite El. cbn [mbind res_bind]. rewrite E. cbn [mbind res_bind]. eexists. split; [reflexivity|]. constructor; [|done].
    by exists y. }
  destruct Hrows as (rows & Erows & HF).
  destruct (indent_drawn archive_style "left" (fun t => t) ((letters <$> ["larry"; "dtype"; "shape"]%string) :: rows) 3) as (t & Et & Hd).
  - lia.
  - constructor; [done|]. clear -HF. induction HF as [|k row ks rows (y & _ & ->) HF IH]; [done|]. by constructor.
  - done.
  - left. destruct ks as [|k ks]. { assert (Hin : k0 ∈ ([] : list string)) by (apply Hks; by exists y0). by apply elem_of_nil in Hin. }
    inversion HF; subst. cbn. lia.
  - by apply justify_names.
  - exists t, ks, rows. split_and!; [|done|by rewrite Hp|done|done|].
    + unfold io_repr. rewrite Hls. cbn [mbind res_bind]. rewrite Erows. cbn [mbind res_bind]. exact Et.
    + assert (Eid : forall rows : list (list text), (fun row : list text => (fun t => t) <$> row) <$> rows = rows).
      { intros l. clear. induction l as [|r l IH]; [done|]. cbn. rewrite IH. f_equal. clear. induction r as [|t r IH]; [done|]. cbn. by f_equal. }
      by rewrite Eid in Hd.
Qed.
