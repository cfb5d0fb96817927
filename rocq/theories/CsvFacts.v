(** Proofs about text files. *)
From Verif Require Import Csv ConvertFacts.

(** * Reading what was written *)

Definition plain (d c : ascii) : Prop := c <> quote /\ c <> cr /\ c <> nl /\ c <> d /\ c <> nul.
Lemma special_false d c : special d c = false <-> c <> d /\ c <> quote /\ c <> cr /\ c <> nl.
Proof. unfold special. rewrite bool_decide_eq_false. tauto. Qed.
Lemma newline_false c : newline c = false <-> c <> cr /\ c <> nl.
Proof. unfold newline. rewrite bool_decide_eq_false. tauto. Qed.
Lemma foldM_app {S X} (f : S -> X -> res S) s l1 l2 :
  foldM f s (l1 ++ l2) = (s' ← foldM f s l1; foldM f s' l2).
Proof. revert s. induction l1 as [|x l1 IH]; intros s; [done|]. simpl. destruct (f s x); [apply IH|done]. Qed.

(** Inside a plain field. *)
Lemma feed_plain d f fs rows t :
  Forall (plain d) t -> foldM (feed d) (Rd InField f fs rows) t = Ok (Rd InField (f ++ t) fs rows).
Proof.
  intros H. revert f. induction H as [|c t (Hq & Hc & Hn & Hd & H0) _ IH]; intros f; [by rewrite app_nil_r|].
  cbn [foldM]. unfold feed at 1, process. rewrite decide_False by done. cbn [rd_state].
  rewrite (proj2 (newline_false c)) by done. rewrite decide_False by done. cbn [mbind res_bind]. rewrite decide_False by done.
  unfold add_char. cbn [rd_field rd_fields rd_rows]. rewrite IH. by rewrite <-app_assoc.
Qed.
(** Inside a quoted field. *)
Lemma feed_quoted d f fs rows t :
  nul ∉ t -> foldM (feed d) (Rd InQuoted f fs rows) (doubled t) = Ok (Rd InQuoted (f ++ t) fs rows).
Proof.
  revert f. induction t as [|c t IH]; intros f Hn; [by rewrite app_nil_r|]. apply not_elem_of_cons in Hn as [Hc Hn].
  cbn [doubled]. destruct (decide (c = quote)) as [->|Hq].
  - change (foldM (feed d) (Rd InQuoted f fs rows) (quote :: quote :: doubled t)) with (foldM (feed d) (Rd InQuoted (f ++ [quote]) fs rows) (doubled t)).
    rewrite IH by done. by rewrite <-app_assoc.
  - cbn [foldM]. unfold feed at 1, process. rewrite decide_False by done. cbn [rd_state].
    rewrite decide_False by done. cbn [mbind res_bind].
    assert ((if decide (c = nl) then end_line (add_char InQuoted c (Rd InQuoted f fs rows)) else add_char InQuoted c (Rd InQuoted f fs rows)) =
            Rd InQuoted (f ++ [c]) fs rows) as -> by by destruct (decide (c = nl)).
    rewrite IH by done. by rewrite <-app_assoc.
Qed.
(** The states in which a field is complete. *)
Definition complete (f : text) (fs : list text) (rows : list (list text)) (r : rd) : Prop :=
  rd_field r = f /\ rd_fields r = fs /\ rd_rows r = rows /\
  (rd_state r = InField \/ rd_state r = QuoteInQuoted \/ rd_state r = StartField).
Lemma feed_field d u t fs rows s :
  separator d -> field_of d u t -> s = StartField \/ (s = StartRecord /\ u <> []) ->
  exists r, foldM (feed d) (Rd s [] fs rows) u = Ok r /\ complete t fs rows r.
Proof.
  intros (Dq & Dc & Dn & D0) Hf Hs. destruct Hf as [t H1 H2 H3 H4 H5|t Hn].
  - assert (Hp : Forall (plain d) t).
    { apply Forall_forall. intros c Hc. unfold plain. split_and!; intros ->; done. }
    destruct t as [|c t].
    { destruct Hs as [-> | [_ Hs]]; [|done]. eexists. split; [done|]. repeat split. cbn. tauto. }
    inversion Hp as [|? ? Hc Hp']; subst. destruct Hc as (Hq & Hcr & Hnl & Hd & H0). eexists. split.
    + cbn [foldM]. unfold feed at 1, process. rewrite decide_False by done. cbn [rd_state]. unfold start_field. rewrite (proj2 (newline_false c)) by done.
      destruct Hs as [-> | [-> _]]; rewrite !decide_False by done; cbn [mbind res_bind]; unfold add_char; cbn [rd_field rd_fields rd_rows];
        rewrite decide_False by done; by apply feed_plain.
    + repeat split. cbn. tauto.
  - eexists. cbn [foldM]. unfold feed at 1, process. rewrite decide_False by done. cbn [rd_state].
    destruct Hs as [-> | [-> _]]; cbn [newline]; unfold start_field; change (newline quote) with false; cbv iota; rewrite decide_True by done;
      cbn [mbind res_bind]; rewrite decide_False by done; unfold goto; cbn [rd_field rd_fields rd_rows];
      rewrite foldM_app, feed_quoted by done; cbn [mbind res_bind foldM]; unfold feed, process; rewrite decide_False by done; cbn [rd_state];
      rewrite decide_True by done; cbn [mbind res_bind]; rewrite decide_False by done; (split; [done|]); repeat split; cbn; tauto.
Qed.
Lemma complete_delim d f fs rows r :
  separator d -> complete f fs rows r -> feed d r d = Ok (Rd StartField [] (fs ++ [f]) rows).
Proof.
  intros (Dq & Dc & Dn & D0) (<- & <- & <- & Hs). unfold feed, process. rewrite decide_False by done. destruct r as [s f fs rows]. cbn [rd_state] in *.
  unfold start_field. rewrite (proj2 (newline_false d)) by done. destruct Hs as [-> | [-> | ->]]; rewrite ?(decide_False (P := d = quote)), ?decide_True by done;
    cbn [mbind res_bind]; by rewrite decide_False.
Qed.
Lemma complete_newline d f fs rows r e :
  separator d -> complete f fs rows r -> e = [nl] \/ e = [cr; nl] -> foldM (feed d) r e = Ok (Rd StartRecord [] [] (rows ++ [fs ++ [f]])).
Proof.
  intros (Dq & Dc & Dn & D0) (<- & <- & <- & Hs) He. destruct r as [s f fs rows]. cbn [rd_state] in *.
  assert (Hn : forall c, newline c = true -> c <> quote -> c <> d -> c <> nul -> process d c (Rd s f fs rows) = Ok (Rd EatCrnl [] (fs ++ [f]) rows)).
  { intros c Hc Hcq Hcd Hc0. unfold process. rewrite decide_False by done. cbn [rd_state]. unfold start_field. rewrite Hc. cbv iota.
    destruct Hs as [-> | [-> | ->]]; rewrite ?(decide_False (P := c = quote)), ?(decide_False (P := c = d)) by done; done. }
  destruct He as [-> | ->]; cbn [foldM]; unfold feed at 1; (rewrite Hn by done); cbn [mbind res_bind].
  - rewrite decide_True by done. done.
  - rewrite decide_False by done. unfold feed. cbn. done.
Qed.
Lemma feed_fields d s f fs rows st :
  separator d -> fields_of d s fs -> st = StartField \/ (st = StartRecord /\ s <> []) ->
  exists r fs0 f0, foldM (feed d) (Rd st [] f rows) s = Ok r /\ fs0 ++ [f0] = f ++ fs /\ complete f0 fs0 rows r.
Proof.
  intros Hd Hf. revert f st. induction Hf as [s t Ht|s t rest fs Ht Hr IH]; intros f st Hs.
  - destruct (feed_field d s t f rows st Hd Ht Hs) as (r & Hr & Hc). by exists r, f, t.
  - rewrite foldM_app. assert (Hx : (r ← foldM (feed d) (Rd st [] f rows) s; feed d r d) = Ok (Rd StartField [] (f ++ [t]) rows)).
    { assert ((st = StartRecord /\ s = []) \/ (st = StartField \/ st = StartRecord /\ s <> [])) as [[-> ->]|Hn].
      { destruct Hs as [-> | [-> _]]; [tauto|]. destruct s; [by left|]. right. by right. }
      - cbn [foldM mbind res_bind]. assert (t = []) as -> by by inversion Ht.
        destruct Hd as (Dq & Dc & Dn & D0). unfold feed, process. rewrite decide_False by done. cbn [rd_state]. unfold start_field.
        rewrite (proj2 (newline_false d)) by done. rewrite decide_False by done. rewrite decide_True by done. cbn [mbind res_bind]. by rewrite decide_False.
      - destruct (feed_field d s t f rows st Hd Ht) as (r & -> & Hc); [done|]. cbn [mbind res_bind]. by apply complete_delim. }
    destruct (foldM (feed d) (Rd st [] f rows) s) as [r0|]; cbn [mbind res_bind] in Hx |- *; [|done].
    cbn [foldM]. rewrite Hx. cbn [mbind res_bind]. destruct (IH (f ++ [t]) StartField) as (r & fs0 & f0 & -> & Hfs & Hc); [by left|].
    exists r, fs0, f0. split_and!; [done| |done]. by rewrite Hfs, <-app_assoc.
Qed.
Lemma feed_line d s e r rows :
  separator d -> line_of d s r -> e = [nl] \/ e = [cr; nl] ->
  foldM (feed d) (Rd StartRecord [] [] rows) (s ++ e) = Ok (Rd StartRecord [] [] (rows ++ [r])).
Proof.
  intros Hd [[-> ->]|[Hs Hr]] He.
  - destruct He as [-> | ->]; done.
  - rewrite foldM_app. destruct (feed_fields d s [] r rows StartRecord Hd Hr) as (r' & fs0 & f0 & -> & Hfs & Hc); [by right|].
    cbn [mbind res_bind]. rewrite (complete_newline d f0 fs0 rows r' e) by done. by rewrite Hfs.
Qed.
Lemma last_cons_ne {A} (x : A) l : l <> [] -> last (x :: l) = last l.
Proof. by destruct l. Qed.
Lemma fields_last d s r : separator d -> fields_of d s r -> last s <> Some nl.
Proof.
  intros (Dq & Dc & Dn & D0) Hf. assert (Hone : forall s f, field_of d s f -> last s <> Some nl).
  { intros u f [t H1 H2 H3 H4 H5|t Hn] E.
    - apply last_Some in E as [t' ->]. apply H4. rewrite elem_of_app. right. by left.
    - rewrite app_comm_cons, last_snoc in E. done. }
  induction Hf as [s f Hs|s f rest fs Hs Hr IH]; [by eapply Hone|]. rewrite last_app.
  destruct rest as [|c rest]; [cbn; congruence|]. rewrite last_cons_ne by done. by destruct (last (c :: rest)) eqn:E; [|apply last_None in E].
Qed.
Lemma read_file d t rows rows0 :
  separator d -> file_of d t rows ->
  exists r, foldM (feed d) (Rd StartRecord [] [] rows0) t = Ok r /\ rd_rows (end_file t r) = rows0 ++ rows.
Proof.
  intros Hd Hf. revert rows0. induction Hf as [|s r Hs Hr|s e r t rows Hr He Hf IH]; intros rows0.
  - eexists. split; [done|]. by rewrite app_nil_r.
  - destruct Hr as [[-> _]|[_ Hr]]; [done|]. destruct (feed_fields d s [] r rows0 StartRecord Hd Hr) as (r' & fs0 & f0 & Hx & Hfs & Hc); [by right|].
    exists r'. split; [done|]. unfold end_file.
    destruct (last s) as [c|] eqn:E; [|by apply last_None in E].
    rewrite decide_False.
    + destruct Hc as (<- & <- & <- & Hst). destruct r' as [st f fs rs]. cbn [rd_field rd_fields rd_rows rd_state] in *.
      cbn in Hfs. destruct Hst as [-> | [-> | ->]]; cbn; by rewrite Hfs.
    + intros ->. by apply (fields_last d s r).
  - rewrite app_assoc, foldM_app, (feed_line d s e r) by done. cbn [mbind res_bind]. destruct (IH (rows0 ++ [r])) as (r' & -> & Hx).
    exists r'. split; [done|]. rewrite <-app_assoc in Hx. cbn in Hx. rewrite <-Hx. f_equal. unfold end_file.
    assert (last ((s ++ e) ++ t) = match t with [] => Some nl | _ => last t end) as ->.
    { destruct t as [|c t]; [|rewrite last_app; by destruct (last (c :: t)) eqn:E; [|apply last_None in E]].
      rewrite app_nil_r. destruct He as [-> | ->]; [apply last_snoc|]. change [cr; nl] with ([cr] ++ [nl]). rewrite app_assoc. apply last_snoc. }
    destruct t; [|done]. by rewrite decide_True.
Qed.
Theorem read_rows_file d t rows : separator d -> file_of d t rows -> read_rows d t = Ok rows.
Proof. intros Hd Hf. unfold read_rows. destruct (read_file d t rows [] Hd Hf) as (r & -> & Hr). cbn [mbind res_bind]. by rewrite Hr. Qed.

(** * What is written *)
Lemma doubled_bind t : (t ≫= (fun c => if decide (c = quote) then [c; c] else [c])) = doubled t.
Proof. induction t as [|c t IH]; [done|]. rewrite bind_cons, IH. cbn [doubled]. destruct (decide (c = quote)) as [->|]; done. Qed.
Lemma doubled_same t : quote ∉ t -> doubled t = t.
Proof. induction t as [|c t IH]; [done|]. rewrite not_elem_of_cons. intros [Hc Ht]. cbn [doubled]. rewrite decide_False by done. by rewrite IH. Qed.
Lemma not_special d t : existsb (special d) t = false -> d ∉ t /\ quote ∉ t /\ cr ∉ t /\ nl ∉ t.
Proof.
  induction t as [|c t IH]; [intros _; split_and!; apply not_elem_of_nil|]. cbn [existsb]. intros [Hc Ht]%orb_false_iff.
  apply special_false in Hc as (? & ? & ? & ?). apply IH in Ht as (? & ? & ? & ?). split_and!; apply not_elem_of_cons; done.
Qed.
Lemma write_field_of d only t : nul ∉ t -> field_of d (write_field d only t) t.
Proof.
  intros Hn. unfold write_field. rewrite doubled_bind. destruct (_ || _) eqn:E; [by constructor|].
  apply orb_false_iff in E as [(? & ? & ? & ?)%not_special _]. rewrite doubled_same by done. by constructor.
Qed.
Lemma write_only_nonempty d t : write_field d true t <> [].
Proof.
  unfold write_field. rewrite doubled_bind. destruct (_ || _) eqn:E; [done|]. destruct t as [|c t]; [by rewrite andb_comm, orb_comm in E|].
  cbn [doubled]. by destruct (decide (c = quote)).
Qed.
Lemma join_fields d (l : list text) (fs : list text) :
  l <> [] -> Forall2 (field_of d) l fs -> fields_of d (join_with [d] l) fs.
Proof.
  intros Hne H. induction H as [|s f l fs Hs Hl IH]; [done|]. destruct l as [|s' l].
  - inversion Hl; subst. by constructor.
  - cbn [join_with]. apply (fields_cons d s f); [done|]. by apply IH.
Qed.
Lemma write_row_line d fields :
  (forall u, u ∈ fields -> nul ∉ u) -> exists s, write_row d fields = s ++ [cr; nl] /\ line_of d s fields.
Proof.
  intros Hn. eexists. split; [done|]. destruct fields as [|t ts]; [by left|]. right. split.
  - destruct ts as [|u ts]; [apply write_only_nonempty|]. cbn [fmap list_fmap join_with]. intros [_ E]%app_nil. done.
  - apply join_fields; [done|]. apply Forall2_fmap_l, Forall_Forall2_diag, Forall_forall. intros u Hu. apply write_field_of. by apply Hn.
Qed.
Lemma write_file d rows : (forall r u, r ∈ rows -> u ∈ r -> nul ∉ u) -> file_of d (write_rows d rows) rows.
Proof.
  induction rows as [|r rows IH]; intros Hn; [constructor|]. unfold write_rows. rewrite bind_cons. fold (write_rows d rows).
  destruct (write_row_line d r) as (s & -> & Hs); [intros u; apply Hn; by left|]. rewrite <-app_assoc.
  apply file_line; [done|by right|]. apply IH. intros r' u Hr. apply Hn. by right.
Qed.
Theorem read_write d rows :
  separator d -> (forall r u, r ∈ rows -> u ∈ r -> nul ∉ u) -> read_rows d (write_rows d rows) = Ok rows.
Proof. intros Hd Hn. apply read_rows_file; [done|]. by apply write_file. Qed.

(** * Universal newlines *)
Lemma universal_app s t : cr ∉ s -> universal (s ++ t) = s ++ universal t.
Proof.
  induction s as [|c s IH]; [done|]. rewrite not_elem_of_cons. intros [Hc Hs]. cbn [app universal].
  rewrite decide_False by done. by rewrite IH.
Qed.
Lemma doubled_elem c t : c ∈ doubled t -> c ∈ t.
Proof.
  induction t as [|x t IH]; [done|]. cbn [doubled]. destruct (decide (x = quote)) as [->|Hx]; rewrite !elem_of_cons; tauto.
Qed.
Lemma fields_no_cr d s r : separator d -> fields_of d s r -> (forall f, f ∈ r -> cr ∉ f) -> cr ∉ s.
Proof.
  intros (Dq & Dc & Dn & D0) Hf. assert (Hone : forall s f, field_of d s f -> cr ∉ f -> cr ∉ s).
  { intros u f [t H1 H2 H3 H4 H5|t Hn] Hcr; [done|]. rewrite elem_of_cons, elem_of_app, elem_of_list_singleton.
    intros [?|[?%doubled_elem|?]]; done. }
  induction Hf as [s f Hs|s f rest fs Hs Hr IH]; intros Hc.
  - eapply Hone; [done|]. apply Hc. by left.
  - rewrite elem_of_app, elem_of_cons. intros [Hx|[Hx|Hx]].
    + eapply Hone; [done| |done]. apply Hc. by left.
    + by subst.
    + apply IH; [|done]. intros g Hg. apply Hc. by right.
Qed.
Lemma universal_file d t rows :
  separator d -> file_of d t rows -> (forall r f, r ∈ rows -> f ∈ r -> cr ∉ f) -> file_of d (universal t) rows.
Proof.
  intros Hd Hf. assert (Hl : forall s r, line_of d s r -> (forall f, f ∈ r -> cr ∉ f) -> cr ∉ s).
  { intros s r [[-> _]|[_ Hr]] Hc; [apply not_elem_of_nil|]. by eapply fields_no_cr. }
  induction Hf as [|s r Hs Hr|s e r t rows Hr He Hf IH]; intros Hc; [constructor| |].
  - assert (universal s = s) as ->.
    { rewrite <-(app_nil_r s) at 1. rewrite universal_app; [by rewrite app_nil_r|]. eapply Hl; [done|]. intros f. apply Hc. by left. }
    by constructor.
  - rewrite universal_app by (eapply Hl; [done|]; intros f; apply Hc; by left).
    assert (universal (e ++ t) = [nl] ++ universal t) as -> by by destruct He as [-> | ->].
    apply file_line; [done|by left|]. apply IH. intros r' f Hr'. apply Hc. by right.
Qed.

(** * Rows of text as labelled values *)
Lemma py_zip_fmap {A B} (f : A -> B) (rows : list (list A)) : py_zip ((fmap (M:=list) f) <$> rows) = (fmap (M:=list) f) <$> py_zip rows.
Proof.
  induction rows as [|r rows IH]; [done|]. destruct rows as [|r2 rows].
  - cbn. rewrite <-!list_fmap_compose. done.
  - change (zip_with cons (f <$> r) (py_zip ((fmap (M:=list) f) <$> r2 :: rows)) = (fmap (M:=list) f) <$> py_zip (r :: r2 :: rows)).
    change (py_zip (r :: r2 :: rows)) with (zip_with cons r (py_zip (r2 :: rows))). rewrite IH.
    generalize (py_zip (r2 :: rows)). clear. induction r as [|x r IH]; intros [|c cs]; try done. csimpl. f_equal. apply IH.
Qed.
Lemma py_zip_snoc {A} (ps : list (list A * A)) k :
  ps <> [] -> Forall (fun p => length p.1 = k) ps -> py_zip ((fun p => p.1 ++ [p.2]) <$> ps) = py_zip ps.*1 ++ [ps.*2].
Proof.
  induction ps as [|[r v] ps IH]; intros Hne Hk; [done|]. apply Forall_cons in Hk as [Hr Hk]. destruct ps as [|p2 ps].
  - cbn. by rewrite fmap_app.
  - change (py_zip ((fun p => p.1 ++ [p.2]) <$> (r, v) :: p2 :: ps)) with (zip_with cons (r ++ [v]) (py_zip ((fun p => p.1 ++ [p.2]) <$> p2 :: ps))).
    change (py_zip ((r, v) :: p2 :: ps).*1) with (zip_with cons r (py_zip (p2 :: ps).*1)). rewrite IH by done.
    rewrite zip_with_app; [done|]. destruct (py_zip_lookup (p2 :: ps).*1 k) as [-> _]; [done|by apply Forall_fmap|done].
Qed.
Lemma fromtuples_text_ok float rows given k :
  rows <> [] -> k <> 0 -> Forall (fun r => length r = S k) rows -> Forall2 (row_gives float) rows given ->
  exists z, fromtuples_text float rows = Ok z /\ length (llabel z) = k /\ tabulates given z.
Proof.
  intros Hne Hk Hlen Hg.
  assert (Hps : exists ps : list (list text * text), rows = (fun p => p.1 ++ [p.2]) <$> ps /\ Forall (fun p => length p.1 = k) ps /\
            Forall2 (fun p g => g.1 = (fun t => LStr (word t)) <$> p.1 /\ exists n, float (word p.2) = Some n /\ g.2 = VFloat n) ps given).
  { clear Hne. induction Hg as [|r g rows given (fs & f & n & -> & H1 & H2 & H3) _ IH]; [by exists []|].
    apply Forall_cons in Hlen as [Hl Hlen]. destruct (IH Hlen) as (ps & -> & Hps & Hps2). exists ((fs, f) :: ps). split; [done|].
    rewrite app_length in Hl. simpl in Hl. split; constructor; simpl; eauto; lia. }
  destruct Hps as (ps & -> & Hps & Hg'). assert (Hpne : ps <> []) by by intros ->.
  assert (Hlab : given.*1 = (fmap (M:=list) (fun t : text => LStr (word t))) <$> ps.*1).
  { clear -Hg'. induction Hg' as [|p g ps given [H1 _] _ IH]; [done|]. csimpl. by rewrite H1, IH. }
  assert (Hval : exists vs, mapM (fun t => float (word t)) ps.*2 = Some vs /\ given.*2 = VFloat <$> vs).
  { clear -Hg'. induction Hg' as [|p g ps given [_ (n & Hn & Hv)] _ IH]; [by exists []|]. destruct IH as (vs & Hvs & He).
    exists (n :: vs). split; [|csimpl; by rewrite Hv, He]. apply mapM_Some. constructor; [done|]. by apply mapM_Some. }
  destruct Hval as (vs & Hvs & Hval).
  destruct (fromtuples_ok given k) as (z & Hz & Hlz & Ht).
  - intros ->. by inversion Hg'.
  - done.
  - clear -Hg' Hps. induction Hg' as [|p g ps given [H1 _] _ IH]; [constructor|]. apply Forall_cons in Hps as [Hp Hps].
    constructor; [by rewrite H1, fmap_length|auto].
  - clear -Hg'. induction Hg' as [|p g ps given [_ (n & _ & Hv)] _ IH]; [constructor|]. constructor; [by rewrite Hv|auto].
  - intros p q j a b Hp Hq Ha Hb. right.
    assert (Hstr : forall p j a, p ∈ given -> p.1 !! j = Some a -> exists s, a = LStr s).
    { intros p' j' a' Hp' Ha'. apply (elem_of_list_fmap_1 fst) in Hp'. rewrite Hlab in Hp'. apply elem_of_list_fmap in Hp' as (l & E & _).
      rewrite E, list_lookup_fmap, fmap_Some in Ha'. destruct Ha' as (t & _ & ->). eauto. }
    destruct (Hstr _ _ _ Hp Ha) as [s ->]. by destruct (Hstr _ _ _ Hq Hb) as [s' ->].
  - exists z. split; [|done]. unfold larry_fromtuples in Hz. rewrite decide_False in Hz by (intros ->; by inversion Hg').
    assert (Hsl : same_length given.*1 = true).
    { apply (same_length_ok _ k). rewrite Hlab, Forall_fmap, Forall_fmap. eapply Forall_impl; [exact Hps|]. intros p Hp. cbn. by rewrite fmap_length. }
    rewrite Hsl in Hz. unfold fromtuples_text. rewrite decide_False by (intros E%fmap_nil_inv; done).
    rewrite (py_zip_snoc ps k) by done. rewrite last_snoc. cbn [of_opt mbind res_bind].
    destruct (py_zip_lookup ps.*1 k) as [Hl _]; [by destruct ps|by apply Forall_fmap|].
    rewrite app_length, Nat.add_sub, take_app.
    assert ((fun col : list text => (fun t => LStr (word t)) <$> col) <$> py_zip ps.*1 = py_zip given.*1) as ->.
    { rewrite Hlab, py_zip_fmap. done. }
    rewrite decide_False.
    + rewrite Hvs. cbn [of_opt mbind res_bind]. by rewrite <-Hval.
    + rewrite Hlab, py_zip_fmap. intros E%fmap_nil_inv. rewrite E in Hl. simpl in Hl. lia.
Qed.

(** * fromcsv *)
Definition readable (py3 : bool) (rows : list (list text)) (skiprows : nat) : Prop :=
  py3 = true -> skiprows = 0 /\ forall r f, r ∈ rows -> f ∈ r -> cr ∉ f.
Lemma one_char_ok delimiter d : letters delimiter = [d] -> one_char delimiter = Ok d.
Proof. unfold one_char. by intros ->. Qed.
Lemma fromcsv_rows (py3 : bool) float t delimiter d rows skiprows :
  letters delimiter = [d] -> separator d -> file_of d t rows ->
  (py3 = true -> skiprows = 0 /\ forall r f, r ∈ rows -> f ∈ r -> cr ∉ f) ->
  larry_fromcsv py3 float t delimiter skiprows =
    if decide (length rows < skiprows) then Err StopIteration else fromtuples_text float (drop skiprows rows).
Proof.
  intros Hd Hs Hf Hp. unfold larry_fromcsv. rewrite (one_char_ok _ _ Hd). cbn [mbind res_bind]. destruct py3; cbn [andb].
  - destruct Hp as [-> Hc]; [done|]. rewrite bool_decide_eq_false_2 by tauto.
    rewrite (read_rows_file d _ rows Hs) by by apply universal_file. done.
  - rewrite (read_rows_file d _ rows Hs) by done. done.
Qed.
Lemma fromcsv_ok (py3 : bool) float t delimiter d rows skiprows given k :
  letters delimiter = [d] -> separator d -> file_of d t rows ->
  (py3 = true -> skiprows = 0 /\ forall r f, r ∈ rows -> f ∈ r -> cr ∉ f) ->
  skiprows < length rows -> k <> 0 -> Forall (fun r => length r = S k) (drop skiprows rows) ->
  Forall2 (row_gives float) (drop skiprows rows) given ->
  exists z, larry_fromcsv py3 float t delimiter skiprows = Ok z /\ length (llabel z) = k /\ tabulates given z.
Proof.
  intros Hd Hs Hf Hp Hsk Hk Hl Hg. rewrite (fromcsv_rows py3 float t delimiter d rows skiprows) by done. rewrite decide_False by lia.
  apply fromtuples_text_ok; [|done..]. intros E. apply (f_equal length) in E. rewrite drop_length in E. simpl in E. lia.
Qed.
Lemma fromcsv_stop float t delimiter d rows skiprows :
  letters delimiter = [d] -> separator d -> file_of d t rows -> length rows < skiprows ->
  larry_fromcsv false float t delimiter skiprows = Err StopIteration.
Proof. intros Hd Hs Hf Hsk. rewrite (fromcsv_rows false float t delimiter d rows skiprows) by done. by rewrite decide_True. Qed.
Lemma fromcsv_empty float t delimiter d rows :
  letters delimiter = [d] -> separator d -> file_of d t rows ->
  larry_fromcsv false float t delimiter (length rows) = Ok empty_larry.
Proof.
  intros Hd Hs Hf. rewrite (fromcsv_rows false float t delimiter d rows) by done. rewrite decide_False by lia. by rewrite drop_all.
Qed.
Lemma py_zip_nil {A} (rows : list (list A)) : [] ∈ rows -> py_zip rows = [].
Proof.
  induction rows as [|r rows IH]; intros H; [by apply elem_of_nil in H|]. destruct rows as [|r2 rows].
  - apply elem_of_list_singleton in H as <-. done.
  - change (py_zip (r :: r2 :: rows)) with (zip_with cons r (py_zip (r2 :: rows))).
    apply elem_of_cons in H as [<-|H]; [done|]. rewrite IH by done. by destruct r.
Qed.
Lemma fromcsv_blank (py3 : bool) float t delimiter d rows skiprows :
  letters delimiter = [d] -> separator d -> file_of d t rows ->
  (py3 = true -> skiprows = 0 /\ forall r f, r ∈ rows -> f ∈ r -> cr ∉ f) ->
  [] ∈ drop skiprows rows -> larry_fromcsv py3 float t delimiter skiprows = Err IndexError.
Proof.
  intros Hd Hs Hf Hp Hb. rewrite (fromcsv_rows py3 float t delimiter d rows skiprows) by done. rewrite decide_False.
  - unfold fromtuples_text. rewrite decide_False by (intros E; rewrite E in Hb; by apply elem_of_nil in Hb). by rewrite py_zip_nil.
  - intros H. rewrite drop_ge in Hb by lia. by apply elem_of_nil in Hb.
Qed.
Lemma fromcsv_number (py3 : bool) float t delimiter d rows skiprows k fs f :
  letters delimiter = [d] -> separator d -> file_of d t rows ->
  (py3 = true -> skiprows = 0 /\ forall r f, r ∈ rows -> f ∈ r -> cr ∉ f) ->
  k <> 0 -> Forall (fun r => length r = S k) (drop skiprows rows) ->
  fs ++ [f] ∈ drop skiprows rows -> float (word f) = None ->
  larry_fromcsv py3 float t delimiter skiprows = Err ValueError.
Proof.
  intros Hd Hs Hf Hp Hk Hl Hr Hnum. rewrite (fromcsv_rows py3 float t delimiter d rows skiprows) by done.
  assert (Hne : drop skiprows rows <> []) by (intros E; rewrite E in Hr; by apply elem_of_nil in Hr).
  rewrite decide_False by (intros H; rewrite drop_ge in Hne by lia; done). revert Hl Hr Hne. generalize (drop skiprows rows). clear -Hk Hnum. intros rows Hl Hr Hne.
  assert (Hps : exists ps : list (list text * text), rows = (fun p => p.1 ++ [p.2]) <$> ps /\ Forall (fun p => length p.1 = k) ps).
  { clear Hne Hr. induction Hl as [|r rows Hr _ IH]; [by exists []|]. destruct IH as (ps & -> & Hps).
    destruct r as [|f' fs' _] using rev_ind; [done|]. exists ((fs', f') :: ps). split; [done|]. constructor; [|done].
    rewrite app_length in Hr. simpl in *. lia. }
  destruct Hps as (ps & -> & Hps). assert (Hpne : ps <> []) by by intros ->.
  unfold fromtuples_text. rewrite decide_False by done. rewrite (py_zip_snoc ps k) by done. rewrite last_snoc. cbn [of_opt mbind res_bind].
  destruct (py_zip_lookup ps.*1 k) as [Hlz _]; [by destruct ps|by apply Forall_fmap|].
  rewrite app_length, Nat.add_sub, take_app. rewrite decide_False by (intros E%fmap_nil_inv; rewrite E in Hlz; simpl in Hlz; lia).
  assert (mapM (fun t => float (word t)) ps.*2 = None) as ->; [|done].
  apply mapM_None. apply elem_of_list_fmap in Hr as (p & E & Hp). apply app_inj_2 in E as [-> [= ->]]; [|done].
  apply Exists_exists. exists p.2. split; [|done]. apply elem_of_list_fmap. eauto.
Qed.

(** * tocsv followed by fromcsv *)
Lemma word_letters s : word (letters s) = s.
Proof. apply String.string_of_list_ascii_of_string. Qed.
Lemma letters_word t : letters (word t) = t.
Proof. apply String.list_ascii_of_string_of_list_ascii. Qed.
Lemma val_to_float_idem v : val_to_float (val_to_float v) = val_to_float v.
Proof. by destruct v as [| |[]| | |]. Qed.
Definition csv_row (str : lab -> string) (repr : val -> string) (p : list lab * val) : list text :=
  ((fun a => letters (str a)) <$> p.1) ++ [letters (repr p.2)].
Definition relabel (str : lab -> string) (ls : list lab) : list lab := (fun a => LStr (str a)) <$> ls.
Lemma csv_roundtrip (py3 : bool) str repr float y delimiter d :
  letters delimiter = [d] -> separator d -> valid y -> lsize y <> 0 ->
  (forall l a, l ∈ llabel y -> a ∈ l -> nul ∉ letters (str a)) ->
  (forall v, v ∈ data (larr y) -> nul ∉ letters (repr v) /\ exists n, float (repr v) = Some n /\ val_to_float v = VFloat n) ->
  (py3 = true -> (forall l a, l ∈ llabel y -> a ∈ l -> cr ∉ letters (str a)) /\ (forall v, v ∈ data (larr y) -> cr ∉ letters (repr v))) ->
  exists fl x z, larry_totuples y = Ok (zip fl x) /\ length x = length fl /\ (forall t, t ∈ fl <-> in_grid (llabel y) t) /\
    (forall k t, fl !! k = Some t -> x !! k = cell y t) /\
    (t ← larry_tocsv str repr y delimiter; larry_fromcsv py3 float t delimiter 0) = Ok z /\ length (llabel z) = length (llabel y) /\
    tabulates ((fun p => (relabel str p.1, val_to_float p.2)) <$> zip fl x) z.
Proof.
  intros Hd Hs Hv Hsz Hn Hval Hp. destruct (totuples_ok y Hv) as (fl & x & Ht & Hlen & Hnd & Hin & Hsize & Hc).
  destruct (flatten_pairs y fl x Hv Hlen Hin Hc) as [H1 H2].
  exists fl, x. unfold larry_tocsv. rewrite (one_char_ok _ _ Hd), Ht. cbn [mbind res_bind].
  set (rows := csv_row str repr <$> zip fl x).
  assert (Hpair : forall p, p ∈ zip fl x -> in_grid (llabel y) p.1 /\ p.2 ∈ data (larr y)).
  { intros p Hp'. pose proof (H1 _ Hp') as Hcell. split; [apply valid_cell_grid; eauto|].
    unfold cell in Hcell. apply bind_Some in Hcell as (idx & _ & Hg). apply elem_of_data; [by apply valid_wf|]. eauto. }
  assert (Hfield : forall P : text -> Prop, (forall l a, l ∈ llabel y -> a ∈ l -> P (letters (str a))) -> (forall v, v ∈ data (larr y) -> P (letters (repr v))) ->
            forall r u, r ∈ rows -> u ∈ r -> P u).
  { intros P HP1 HP2 r u (p & -> & Hp')%elem_of_list_fmap Hu. destruct (Hpair _ Hp') as [Hg Hx].
    unfold csv_row in Hu. apply elem_of_app in Hu as [Hu| ->%elem_of_list_singleton]; [|by apply HP2].
    apply elem_of_list_fmap in Hu as (a & -> & Ha). apply elem_of_list_lookup in Ha as [j Hj].
    destruct (Forall2_lookup_l _ _ _ _ _ Hg Hj) as (l & Hl & Hal). eapply HP1; [by eapply elem_of_list_lookup_2|done]. }
  destruct (fromcsv_ok py3 float (write_rows d rows) delimiter d rows 0 ((fun p => (relabel str p.1, val_to_float p.2)) <$> zip fl x) (length (llabel y))) as (z & Hz & Hlz & Hta).
  - done.
  - done.
  - apply write_file. apply (Hfield (fun u => nul ∉ u)); [done|]. intros v Hv'. by apply Hval.
  - intros Hpy. split; [done|]. destruct (Hp Hpy). by apply (Hfield (fun u => cr ∉ u)).
  - unfold rows. rewrite fmap_length, zip_with_length. rewrite Hlen, Hsize. lia.
  - pose proof (valid_nonempty y Hv). by destruct (llabel y).
  - rewrite drop_0. apply Forall_fmap, Forall_forall. intros p Hp'. destruct (Hpair _ Hp') as [Hg _]. cbn. unfold csv_row.
    rewrite app_length, fmap_length. apply Forall2_length in Hg. rewrite Hg. simpl. lia.
  - rewrite drop_0. apply Forall2_fmap_l, Forall2_fmap_r, Forall_Forall2_diag, Forall_forall. intros p Hp'.
    destruct (Hpair _ Hp') as [_ Hx]. destruct (Hval _ Hx) as (_ & n & Hn' & Hvn). exists ((fun a => letters (str a)) <$> p.1), (letters (repr p.2)), n. cbn.
    split_and!; [done| |by rewrite word_letters|done]. unfold relabel. rewrite <-list_fmap_compose. apply list_fmap_ext. intros i a _. cbn. by rewrite word_letters.
  - exists z. done.
Qed.
Lemma csv_text_copy (py3 : bool) str repr float y delimiter d :
  letters delimiter = [d] -> separator d -> valid y -> lsize y <> 0 ->
  (forall l a, l ∈ llabel y -> a ∈ l -> nul ∉ letters (str a)) ->
  (forall v, v ∈ data (larr y) -> nul ∉ letters (repr v) /\ exists n, float (repr v) = Some n /\ val_to_float v = VFloat n) ->
  (py3 = true -> (forall l a, l ∈ llabel y -> a ∈ l -> cr ∉ letters (str a)) /\ (forall v, v ∈ data (larr y) -> cr ∉ letters (repr v))) ->
  (forall l, l ∈ llabel y -> NoDup (str <$> l)) ->
  exists z, (t ← larry_tocsv str repr y delimiter; larry_fromcsv py3 float t delimiter 0) = Ok z /\ text_copy str y z.
Proof.
  intros Hd Hs Hv Hsz Hn Hval Hp Hinj.
  destruct (csv_roundtrip py3 str repr float y delimiter d Hd Hs Hv Hsz Hn Hval Hp) as (fl & x & z & _ & Hlen & Hin & Hc & Hz & Hlz & Hta).
  destruct (flatten_pairs y fl x Hv Hlen Hin Hc) as [H1 H2].
  exists z. split; [done|]. destruct Hta as (Hvz & Hdz & _ & Hax & Hlast & _).
  assert (Hgiven : forall p, p ∈ ((fun p => (relabel str p.1, val_to_float p.2)) <$> zip fl x) <->
            exists ls v, cell y ls = Some v /\ p = (relabel str ls, val_to_float v)).
  { intros p. rewrite elem_of_list_fmap. split.
    - intros ([ls v] & -> & Hq). exists ls, v. split; [|done]. by apply H1 in Hq.
    - intros (ls & v & Hcl & ->). exists (ls, v). split; [done|]. by apply H2. }
  split_and!; [done|done| |].
  - apply Forall2_same_length_lookup. split; [done|]. intros ax l l' Hl Hl'.
    destruct (Hax _ _ Hl') as [Hsort Hel]. split; [done|]. apply NoDup_Permutation.
    + by apply lt_sorted_nodup.
    + assert (Hnd : NoDup (str <$> l)) by (apply Hinj; by eapply elem_of_list_lookup_2).
      assert (Hi : Inj eq eq LStr) by by intros ? ? [= ->]. apply (NoDup_fmap_2 LStr) in Hnd. by rewrite <-list_fmap_compose in Hnd.
    + intros u. rewrite Hel. rewrite elem_of_list_fmap. split.
      * intros (p & Hp' & Hu). apply Hgiven in Hp' as (ls & v & Hcl & ->). cbn in Hu. unfold relabel in Hu.
        rewrite list_lookup_fmap, fmap_Some in Hu. destruct Hu as (a & Ha & ->). exists a. split; [done|].
        assert (Hg : in_grid (llabel y) ls) by (apply valid_cell_grid; eauto).
        destruct (Forall2_lookup_l _ _ _ _ _ Hg Ha) as (l2 & Hl2 & Hx). congruence.
      * intros (a & -> & Ha). destruct (in_grid_extend (llabel y) ax l a) as (ls & Hg & Hlx); [by apply size_nonempty|done|done|].
        apply valid_cell_grid in Hg as [v Hcl]; [|done]. exists (relabel str ls, val_to_float v). split; [apply Hgiven; eauto|].
        cbn. unfold relabel. by rewrite list_lookup_fmap, Hlx.
  - intros ls v Hcl. change ((fun a => LStr (str a)) <$> ls) with (relabel str ls).
    destruct (last_given_total ((fun p => (relabel str p.1, val_to_float p.2)) <$> zip fl x) (relabel str ls)) as [[w Hw]|Hno].
    + assert (w = val_to_float v) as ->.
      { destruct Hw as (i & Hi & _). apply elem_of_list_lookup_2, Hgiven in Hi as (ls' & v' & Hcl' & [= Hls ->]).
        assert (ls' = ls) as ->; [|congruence].
        assert (Hg : in_grid (llabel y) ls) by (apply valid_cell_grid; eauto). assert (Hg' : in_grid (llabel y) ls') by (apply valid_cell_grid; eauto).
        clear -Hls Hg Hg' Hinj. revert ls' Hls Hg'. induction Hg as [|a l ls L Ha _ IH]; intros ls' Hls Hg'; inversion Hg' as [|a' ? ls'' ? Ha' Hg'']; subst; [done|].
        unfold relabel in Hls. cbn in Hls. injection Hls as Hs Hls. f_equal.
        - assert (Hnd : NoDup (str <$> l)) by (apply Hinj; by left). apply elem_of_list_lookup in Ha as [i Hi]. apply elem_of_list_lookup in Ha' as [j Hj].
          assert (i = j) as ->; [|congruence]. eapply NoDup_lookup; [exact Hnd| |].
          + rewrite list_lookup_fmap, Hi. done.
          + rewrite list_lookup_fmap, Hj. cbn. by rewrite Hs.
        - apply IH; [|done|done]. intros l' Hl'. apply Hinj. by right. }
      rewrite <-val_to_float_idem. by apply Hlast.
    + exfalso. assert (He : (relabel str ls, val_to_float v) ∈ ((fun p => (relabel str p.1, val_to_float p.2)) <$> zip fl x)) by (apply Hgiven; eauto).
      apply elem_of_list_lookup in He as [i Hi]. by apply Hno in Hi.
Qed.

(** * tofile *)
Lemma mapR_rows {B} (f : nat -> res B) (R : nat -> B -> Prop) n :
  (forall i, i < n -> exists r, f i = Ok r /\ R i r) ->
  exists rows, mapR f (seq 0 n) = Ok rows /\ length rows = n /\ forall i r, rows !! i = Some r -> R i r.
Proof.
  intros H. destruct (mapR_total f (seq 0 n)) as [rows Hr].
  { intros i [_ Hi]%elem_of_seq. destruct (H i) as (r & Hr & _); [lia|]. eauto. }
  exists rows. split; [done|]. pose proof (mapR_length _ _ _ Hr) as Hl. rewrite seq_length in Hl. split; [done|].
  intros i r Hi. apply mapR_ok in Hr. destruct (Forall2_lookup_r _ _ _ _ _ Hr Hi) as (j & Hj & Hf).
  apply lookup_seq in Hj as [-> Hj]. destruct (H i) as (r' & Hr' & HR); [lia|]. simpl in Hf. congruence.
Qed.
Lemma rows_lines {A B} (f : A -> B) (R : nat -> A -> Prop) (parts : list B) :
  (forall i p, parts !! i = Some p -> exists r, p = f r /\ R i r) ->
  exists rows, parts = f <$> rows /\ forall i r, rows !! i = Some r -> R i r.
Proof.
  revert R. induction parts as [|p parts IH]; intros R H; [by exists []|].
  destruct (H 0 p) as (r & -> & Hr); [done|]. destruct (IH (fun i => R (S i))) as (rows & -> & Hrows); [intros i; apply (H (S i))|].
  exists (r :: rows). split; [done|]. intros [|i] r'; cbn; [by intros [= <-]|apply Hrows].
Qed.
Lemma splits_join c ts : ts <> [] -> (forall t, t ∈ ts -> c ∉ t) -> splits c (join_with [c] ts) ts.
Proof.
  intros Hne Hc. induction ts as [|t ts IH]; [done|]. destruct ts as [|t2 ts].
  - constructor. apply Hc. by left.
  - cbn [join_with]. apply (splits_cons c t); [apply Hc; by left|]. apply IH; [done|]. intros u Hu. apply Hc. by right.
Qed.
Lemma splits_lines lines : (forall t, t ∈ lines -> nl ∉ t) -> splits nl (concat ((fun s => s ++ [nl]) <$> lines)) (lines ++ [[]]).
Proof.
  intros Hc. induction lines as [|s lines IH]; [constructor; apply not_elem_of_nil|]. cbn [fmap list_fmap concat app].
  rewrite <-app_assoc. apply (splits_cons nl s); [apply Hc; by left|]. apply IH. intros u Hu. apply Hc. by right.
Qed.
Lemma join_no c d ts : c <> d -> (forall t, t ∈ ts -> c ∉ t) -> c ∉ join_with [d] ts.
Proof.
  intros Hd Hc. induction ts as [|t ts IH]; [apply not_elem_of_nil|]. destruct ts as [|t2 ts]; [apply Hc; by left|].
  cbn [join_with]. rewrite elem_of_app. intros [H|H]; [revert H; apply Hc; by left|]. apply elem_of_cons in H as [H|H]; [done|].
  revert H. apply IH. intros u Hu. apply Hc. by right.
Qed.
Lemma tofile_ok str repr y delimiter d :
  letters delimiter = [d] -> d <> nl -> valid y ->
  (exists l, llabel y = [l]) \/ (exists l0 l1, llabel y = [l0; l1] /\ l1 <> []) ->
  (forall l a, l ∈ llabel y -> a ∈ l -> d ∉ letters (str a) /\ nl ∉ letters (str a)) ->
  (forall v, v ∈ data (larr y) -> d ∉ letters (repr v) /\ nl ∉ letters (repr v)) ->
  exists t lines table, larry_tofile str repr y delimiter = Ok t /\
    splits nl t (lines ++ [[]]) /\ Forall2 (splits d) lines table /\ table_of str repr y table.
Proof.
  intros Hd Hdn Hv Hdim Hl Hval. pose proof (valid_shape y Hv) as Hsh. pose proof (valid_wf y Hv) as Hwf.
  assert (Hfin : forall table : list (list text), (forall r u, r ∈ table -> u ∈ r -> d ∉ u /\ nl ∉ u) -> (forall r, r ∈ table -> r <> []) ->
            exists lines, splits nl (concat ((fun r => join_with [d] r ++ [nl]) <$> table)) (lines ++ [[]]) /\ Forall2 (splits d) lines table).
  { intros table Hu Hne. exists (join_with [d] <$> table). split.
    - replace ((fun r => join_with [d] r ++ [nl]) <$> table) with ((fun s => s ++ [nl]) <$> (join_with [d] <$> table)) by by rewrite <-list_fmap_compose.
      apply splits_lines. intros t (r & -> & Hr)%elem_of_list_fmap. apply join_no; [done|]. intros u Hu'. by eapply Hu.
    - apply Forall2_fmap_l, Forall_Forall2_diag, Forall_forall. intros r Hr. apply splits_join; [by apply Hne|]. intros u Hu'. by eapply Hu. }
  assert (Hget : forall idx ls, labels_at (llabel y) idx ls -> exists v, aget (larr y) idx = Some v /\ cell y ls = Some v /\ v ∈ data (larr y)).
  { intros idx ls Hat. rewrite (cell_at y idx ls) by (done || by apply valid_nodup).
    destruct (proj2 (get_is_Some (larr y) idx Hwf)) as [v Hx].
    - change (in_range (lshape y) idx). rewrite <-Hsh. by eapply labels_at_in_range.
    - exists v. split_and!; [done|done|]. apply elem_of_data; eauto. }
  destruct Hdim as [[l Hll]|(l0 & l1 & Hll & Hne1)].
  - unfold larry_tofile, table_of. rewrite Hll, Hd. rewrite Hll in Hsh, Hget, Hl. cbn in Hsh.
    assert (lsize y = length l) as ->. { unfold lsize, asize. change (shape (larr y)) with (lshape y). rewrite <-Hsh. cbn. lia. }
    match goal with |- context [mapR ?e (seq 0 (length l))] => set (f := e) end. destruct (mapR_rows f (fun i p => exists r, p = join_with [d] r ++ [nl] /\ exists a v, l !! i = Some a /\ cell y [a] = Some v /\ v ∈ data (larr y) /\ r = [letters (str a); letters (repr v)]) (length l)) as (parts & Hp & Hlen & HR).
    { intros i Hi. destruct (lookup_lt_is_Some_2 l i Hi) as [a Ha]. destruct (Hget [i] [a]) as (v & Hx & Hc & Hin); [by repeat constructor|].
      exists (join_with [d] [letters (str a); letters (repr v)] ++ [nl]). split; [|eauto 10]. unfold f. rewrite Ha. cbn [of_opt mbind res_bind]. rewrite Hx. cbn. by rewrite <-app_assoc. }
    rewrite Hp. cbn [mbind res_bind]. apply rows_lines in HR as (table & -> & HR). rewrite fmap_length in Hlen.
    destruct (Hfin table) as (lines & H1 & H2).
    { intros r u (i & Hi)%elem_of_list_lookup Hu. apply HR in Hi as (a & v & Ha & _ & Hin & ->).
      apply elem_of_cons in Hu as [-> |Hu]; [eapply Hl; [by left|by eapply elem_of_list_lookup_2]|]. apply elem_of_list_singleton in Hu as ->. by apply Hval. }
    { intros r (i & Hi)%elem_of_list_lookup. apply HR in Hi as (a & v & _ & _ & _ & ->). done. }
    eexists _, lines, table. split_and!; [done|done|done|done|]. intros i a Ha.
    destruct (lookup_lt_is_Some_2 table i) as [r Hr]; [rewrite Hlen; by eapply lookup_lt_Some|].
    destruct (HR _ _ Hr) as (a' & v & Ha' & Hc & _ & ->). assert (a' = a) as -> by congruence. eauto.
  - unfold larry_tofile, table_of. rewrite Hll, Hd. rewrite Hll in Hsh, Hget, Hl.
    match goal with |- context [mapR ?e (seq 0 (length l1))] => set (h := e) end. destruct (mapR_rows h (fun i p => exists a, l1 !! i = Some a /\ p = letters (str a)) (length l1)) as (head & Hh & Hlh & HRh).
    { intros i Hi. destruct (lookup_lt_is_Some_2 l1 i Hi) as [a Ha]. exists (letters (str a)). split; [|eauto]. unfold h. by rewrite Ha. }
    rewrite Hh. cbn [mbind res_bind].
    assert (head = (fun a => letters (str a)) <$> l1) as ->.
    { apply list_eq_same_length with (length l1); [by rewrite fmap_length|done|]. intros i p q _ Hp Hq. apply HRh in Hp as (a & Ha & ->).
      rewrite list_lookup_fmap, Ha in Hq. cbn in Hq. congruence. }
    match goal with |- context [mapR ?e (seq 0 (length l0))] => set (f := e) end. 
    destruct (mapR_rows f (fun i p => exists r, p = join_with [d] r ++ [nl] /\ exists a vs, l0 !! i = Some a /\ r = letters (str a) :: vs /\ length vs = length l1 /\
                forall j p, vs !! j = Some p -> exists b v, l1 !! j = Some b /\ cell y [a; b] = Some v /\ v ∈ data (larr y) /\ p = letters (repr v)) (length l0)) as (parts & Hp & Hlen & HR).
    { intros i Hi. destruct (lookup_lt_is_Some_2 l0 i Hi) as [a Ha]. unfold f. rewrite Ha. cbn [of_opt mbind res_bind].
      match goal with |- context [mapR ?e (seq 0 (length l1))] => set (g := e) end. destruct (mapR_rows g (fun j p => exists b v, l1 !! j = Some b /\ cell y [a; b] = Some v /\ v ∈ data (larr y) /\ p = letters (repr v)) (length l1)) as (vs & Hvs & Hlv & HRv).
      { intros j Hj. destruct (lookup_lt_is_Some_2 l1 j Hj) as [b Hb]. destruct (Hget [i; j] [a; b]) as (v & Hx & Hc & Hin); [by repeat constructor|].
        exists (letters (repr v)). split; [unfold g; by rewrite Hx|eauto 10]. }
      rewrite Hvs. cbn [mbind res_bind]. eexists. split; [done|]. exists (letters (str a) :: vs). split; [done|]. eauto 10. }
    rewrite Hp. cbn [mbind res_bind]. apply rows_lines in HR as (table & -> & HR). rewrite fmap_length in Hlen.
    set (hd := [] :: ((fun a => letters (str a)) <$> l1)).
    destruct (Hfin (hd :: table)) as (lines & H1 & H2).
    { intros r u [-> |(i & Hi)%elem_of_list_lookup]%elem_of_cons Hu.
      - apply elem_of_cons in Hu as [-> |Hu]; [split; apply not_elem_of_nil|]. apply elem_of_list_fmap in Hu as (a & -> & Ha).
        eapply Hl; [right; by left|done].
      - apply HR in Hi as (a & vs & Ha & -> & Hlv & Hvs).
        apply elem_of_cons in Hu as [-> |Hu]; [eapply Hl; [by left|by eapply elem_of_list_lookup_2]|].
        apply elem_of_list_lookup in Hu as [j Hj]. apply Hvs in Hj as (b & v & _ & _ & Hin & ->). by apply Hval. }
    { intros r [-> |(i & Hi)%elem_of_list_lookup]%elem_of_cons; [done|]. by apply HR in Hi as (a & vs & _ & -> & _). }
    exists (concat ((fun r => join_with [d] r ++ [nl]) <$> hd :: table)), lines, (hd :: table). split_and!; [|done|done|cbn; lia|done|].
    + f_equal. cbn [fmap list_fmap concat hd]. unfold hd. destruct l1 as [|b l1]; [done|]. cbn [fmap list_fmap join_with app]. f_equal. by rewrite <-app_assoc.
    + intros i a Ha. destruct (lookup_lt_is_Some_2 table i) as [r Hr]; [rewrite Hlen; by eapply lookup_lt_Some|].
      destruct (HR _ _ Hr) as (a' & vs & Ha' & -> & Hlv & Hvs). assert (a' = a) as -> by congruence. exists vs. split_and!; [done|done|].
      intros j b Hb. destruct (lookup_lt_is_Some_2 vs j) as [p Hp']; [rewrite Hlv; by eapply lookup_lt_Some|].
      destruct (Hvs _ _ Hp') as (b' & v & Hb' & Hc & _ & ->). assert (b' = b) as -> by congruence. eauto.
Qed.
Lemma tofile_no_columns str repr y delimiter d l0 :
  letters delimiter = [d] -> llabel y = [l0; []] ->
  larry_tofile str repr y delimiter = Ok (concat ((fun s => s ++ [nl]) <$> [d] :: ((fun a => letters (str a)) <$> l0))).
Proof.
  intros Hd Hl. unfold larry_tofile. rewrite Hl, Hd. cbn [length seq mapR mbind res_bind].
  match goal with |- context [mapR ?e (seq 0 (length l0))] => set (f := e) end.
  destruct (mapR_rows f (fun i p => exists a, l0 !! i = Some a /\ p = letters (str a) ++ [nl]) (length l0)) as (parts & Hp & Hlen & HR).
  { intros i Hi. destruct (lookup_lt_is_Some_2 l0 i Hi) as [a Ha]. exists (letters (str a) ++ [nl]). split; [|eauto]. unfold f. by rewrite Ha. }
  rewrite Hp. cbn [mbind res_bind]. f_equal.
  assert (parts = (fun s => s ++ [nl]) <$> ((fun a => letters (str a)) <$> l0)) as ->; [|done].
  apply list_eq_same_length with (length l0); [by rewrite !fmap_length|done|]. intros i p q _ Hp' Hq. apply HR in Hp' as (a & Ha & ->).
  rewrite !list_lookup_fmap, Ha in Hq. cbn in Hq. congruence.
Qed.
Lemma first_eq (c : ascii) t t' rest rest' : c ∉ t -> c ∉ t' -> t ++ c :: rest = t' ++ c :: rest' -> t = t' /\ rest = rest'.
Proof.
  revert t'. induction t as [|x t IHt]; intros [|x' t'] Ht Ht' E; simplify_eq/=.
  - done.
  - destruct Ht'. by left.
  - destruct Ht. by left.
  - rewrite not_elem_of_cons in Ht, Ht'. destruct (IHt t') as [-> ->]; tauto.
Qed.
Lemma splits_first c t rest ts : c ∉ t -> splits c (t ++ c :: rest) ts -> exists ts', ts = t :: ts' /\ splits c rest ts'.
Proof.
  intros Ht H. inversion H as [? Ht' E|t' rest' ts' Ht' H' E]; subst.
  - destruct Ht'. apply elem_of_app. right. by left.
  - apply first_eq in E as [-> ->]; eauto.
Qed.
(** No line of column labels then: it reads as one empty column. *)
Lemma tofile_no_columns_refuted str repr y delimiter d l0 t lines table :
  letters delimiter = [d] -> d <> nl -> llabel y = [l0; []] -> larry_tofile str repr y delimiter = Ok t ->
  splits nl t (lines ++ [[]]) -> Forall2 (splits d) lines table -> ~ table_of str repr y table.
Proof.
  intros Hd Hn Hl Ht Hs Hf. rewrite (tofile_no_columns _ _ _ _ d l0) in Ht by done. injection Ht as <-.
  unfold table_of. rewrite Hl. intros (_ & Hh & _).
  apply (splits_first nl [d]) in Hs as (ts & E & Hs); [|by rewrite elem_of_list_singleton; congruence].
  destruct lines as [|u lines]; [by injection E|]. injection E as -> E.
  inversion Hf as [|? r ? table' Hr Hrest]; subst.
  apply (splits_first d []) in Hr as (ts' & -> & Hr); [|apply not_elem_of_nil]. injection Hh as ->. inversion Hr.
Qed.
Lemma tofile_bad str repr y delimiter : length (llabel y) <> 1 -> length (llabel y) <> 2 -> larry_tofile str repr y delimiter = Err ValueError.
Proof. unfold larry_tofile. by destruct (llabel y) as [|? [|? [|? ?]]]. Qed.

Lemma tocsv_file str repr y delimiter d :
  letters delimiter = [d] -> valid y ->
  (forall l a, l ∈ llabel y -> a ∈ l -> nul ∉ letters (str a)) -> (forall v, v ∈ data (larr y) -> nul ∉ letters (repr v)) ->
  exists t rows, larry_tocsv str repr y delimiter = Ok t /\ file_of d t rows /\ length rows = lsize y /\
    forall r, r ∈ rows <-> exists ls v, cell y ls = Some v /\ r = ((fun a => letters (str a)) <$> ls) ++ [letters (repr v)].
Proof.
  intros Hd Hv Hn Hval. destruct (totuples_ok y Hv) as (fl & x & Ht & Hlen & Hnd & Hin & Hsize & Hc).
  destruct (flatten_pairs y fl x Hv Hlen Hin Hc) as [H1 H2].
  assert (Hrows : forall r, r ∈ csv_row str repr <$> zip fl x <-> exists ls v, cell y ls = Some v /\ r = ((fun a => letters (str a)) <$> ls) ++ [letters (repr v)]).
  { intros r. rewrite elem_of_list_fmap. split.
    - intros ([ls v] & -> & Hp). exists ls, v. split; [by apply H1 in Hp|done].
    - intros (ls & v & Hcl & ->). exists (ls, v). split; [done|]. by apply H2. }
  exists (write_rows d (csv_row str repr <$> zip fl x)), (csv_row str repr <$> zip fl x). unfold larry_tocsv. rewrite (one_char_ok _ _ Hd), Ht. cbn [mbind res_bind].
  split_and!; [done| | |done].
  - apply write_file. intros r u Hr Hu. apply Hrows in Hr as (ls & v & Hcl & ->).
    apply elem_of_app in Hu as [Hu| ->%elem_of_list_singleton].
    + apply elem_of_list_fmap in Hu as (a & -> & [j Hj]%elem_of_list_lookup).
      assert (Hg : in_grid (llabel y) ls) by (apply valid_cell_grid; eauto).
      destruct (Forall2_lookup_l _ _ _ _ _ Hg Hj) as (l & Hl & Hal). eapply Hn; [by eapply elem_of_list_lookup_2|done].
    + apply Hval. unfold cell in Hcl. apply bind_Some in Hcl as (idx & _ & Hgx). apply elem_of_data; [by apply valid_wf|]. eauto.
  - rewrite fmap_length, zip_with_length. lia.
Qed.
Lemma text_copy_eq str y z :
  valid y -> ldtype y = DFloat -> (forall s, str (LStr s) = s) ->
  (forall l a, l ∈ llabel y -> a ∈ l -> exists s, a = LStr s) ->
  (forall l, l ∈ llabel y -> StronglySorted lab_lt l) -> text_copy str y z -> z = y.
Proof.
  intros Hv Hd Hstr Hl Hs (H1 & H2 & H3 & H4). apply sorted_copy_eq; [done..|]. split_and!; [done|done| |].
  - assert (Hid : forall l, l ∈ llabel y -> (fun a => LStr (str a)) <$> l = l).
    { intros l Hin. transitivity (id <$> l); [|by rewrite list_fmap_id]. apply list_fmap_ext. intros i a Ha. cbn.
      destruct (Hl l a) as [s ->]; [done|by eapply elem_of_list_lookup_2|]. by rewrite Hstr. }
    clear -H3 Hid. induction H3 as [|l l' L L' [Ha Hb] _ IH]; constructor.
    + split; [done|]. rewrite Hid in Hb; [done|by left].
    + apply IH. intros l0 Hl0. apply Hid. by right.
  - intros ls v Hc. rewrite <-(H4 _ _ Hc). f_equal. transitivity (id <$> ls); [by rewrite list_fmap_id|]. apply list_fmap_ext. intros i a Ha. cbn.
    assert (Hg : in_grid (llabel y) ls) by (apply valid_cell_grid; eauto).
    destruct (Forall2_lookup_l _ _ _ _ _ Hg Ha) as (l & Hl' & Hal). destruct (Hl l a) as [s ->]; [by eapply elem_of_list_lookup_2|done|]. by rewrite Hstr.
Qed.
Lemma csv_empty py3 str repr float y delimiter d :
  letters delimiter = [d] -> valid y -> lsize y = 0 ->
  (t ← larry_tocsv str repr y delimiter; larry_fromcsv py3 float t delimiter 0) = Ok empty_larry.
Proof.
  intros Hd Hv Hs. destruct (totuples_ok y Hv) as (fl & x & Ht & Hlen & Hnd & Hin & Hsize & Hc).
  assert (fl = []) as -> by by (apply nil_length_inv; lia). assert (x = []) as -> by by (apply nil_length_inv; simpl in *; lia).
  unfold larry_tocsv. rewrite (one_char_ok _ _ Hd), Ht. cbn [mbind res_bind fmap list_fmap]. unfold larry_fromcsv. rewrite (one_char_ok _ _ Hd). by destruct py3.
Qed.
Lemma csv_delimiter py3 str repr float y t delimiter skiprows :
  length (letters delimiter) <> 1 -> larry_tocsv str repr y delimiter = Err TypeError /\ larry_fromcsv py3 float t delimiter skiprows = Err TypeError.
Proof. intros H. unfold larry_tocsv, larry_fromcsv, one_char. by destruct (letters delimiter) as [|c [|? ?]]. Qed.
Lemma fromcsv_py3 float t delimiter d skiprows :
  letters delimiter = [d] -> skiprows <> 0 -> larry_fromcsv true float t delimiter skiprows = Err AttributeError.
Proof. intros Hd Hs. unfold larry_fromcsv. rewrite (one_char_ok _ _ Hd). cbn [mbind res_bind andb]. by rewrite bool_decide_eq_true_2. Qed.
