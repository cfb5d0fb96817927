(** Properties C47-C50: archives of larrys (la/io.py). *)
From Verif Require Import ArchiveFacts.
From Verif Require Import PropsLarry PropsAlign PropsOps PropsNumeric.
From stdpp Require Import gmap stringmap.

(** Dates and times as labels, and an axis without labels. *)
Definition exd : larry :=
  Larry (Nda DInt (Arr [2; 1] [VInt 7; VInt 8])) [[LDate 733000; LDate 5]; [LDatetime 2010 1 2 3 4 5 6 None]].
Definition exo : larry := Larry (Nda DFloat (Arr [1; 0] [])) [[LTime 1 2 3 4 None]; []].
(** Labels of two types on the last axis. *)
Definition exmix : larry := Larry (Nda DInt (Arr [1; 2] [VInt 1; VInt 2])) [[LInt 1]; [LInt 1; LStr "a"]].
Example exd_valid : valid exd.
Proof. solve_valid. Qed.
Example exo_valid : valid exo.
Proof. solve_valid. Qed.
Example exmix_valid : valid exmix.
Proof. solve_valid. Qed.

Ltac each tac :=
  intros ? He; repeat (apply elem_of_cons in He as [-> |He]; [tac|]); by apply elem_of_nil in He.
Ltac solve_plain :=
  first
  [ left; each ltac:(eexists; split; [reflexivity|lia])
  | right; left; each ltac:(eexists; split; [reflexivity|done])
  | right; right; left; each ltac:(eexists; reflexivity)
  | right; right; right; left; each ltac:(repeat eexists; reflexivity)
  | right; right; right; right; each ltac:(repeat eexists; reflexivity) ].
Ltac solve_labels := unfold llabel; repeat (apply Forall_cons; split; [solve_plain|]); by apply Forall_nil.
Ltac solve_flat := split; [done|split; [done|simpl; unfold slash; intuition discriminate]].
Example exm_archivable : archivable exm.
Proof. split_and!; [exact exn_valid|done|solve_labels]. Qed.
Example exd_archivable : archivable exd.
Proof. split_and!; [exact exd_valid|done|solve_labels]. Qed.
Example exo_archivable : archivable exo.
Proof. split_and!; [exact exo_valid|done|solve_labels]. Qed.

(** C47: an archive is a dictionary of larrys. *)
Theorem C47_dictionary : forall os, Forall op_ok os ->
  let f := (io_run empty_file os).1 in
  let d := (dict_run (fun _ => None) os).1 in
  (io_run empty_file os).2 = (dict_run (fun _ => None) os).2 /\
  NoDup (io_keys f) /\ (forall k, k ∈ io_keys f <-> is_Some (d k)) /\
  (forall k, flat k -> load f (Some k) = of_opt KeyError (d k) /\ io_getitem f (Some k) = of_opt KeyError (d k) /\
     (io_contains f k = true <-> is_Some (d k))) /\
  (exists ys, io_values f = Ok ys /\ Forall2 (fun k y => d k = Some y) (io_keys f) ys /\ io_len f = length ys).
Proof. exact archive_dictionary. Qed.
Theorem C47_type_error : forall f key value,
  io_setitem None value f = ([], Err TypeError) /\ io_setitem key None f = ([], Err TypeError) /\
  io_delitem None f = ([], Err TypeError) /\ load f None = Err TypeError.
Proof. exact archive_type_error. Qed.
Definition exops : list dict_op :=
  [DPut "a" exm; DPut "b" exd; DPut "a" exo; DDel "c"; DPut "c d" exm; DDel "b"].
Example C47_example :
  Forall op_ok exops /\
  (io_run empty_file exops).2 = [Ok (); Ok (); Ok (); Err KeyError; Ok (); Ok ()] /\
  io_keys (io_run empty_file exops).1 = ["a"; "c d"]%string /\
  load (io_run empty_file exops).1 (Some "a"%string) = Ok exo /\
  load (io_run empty_file exops).1 (Some "b"%string) = Err KeyError.
Proof.
  split; [|by vm_compute].
  unfold exops. repeat (apply Forall_cons; split; cbn [op_ok]; [first [solve_flat|split; [solve_flat|first [exact exm_archivable|exact exd_archivable|exact exo_archivable]]]|]).
  by apply Forall_nil.
Qed.

(** C48: labels come back from an archive. *)
Theorem C48_label : forall l, plain_label l ->
  exists a dt, list2array l = Ok (a, dt) /\ load_axis (NLabel a (Some dt)) = Ok l.
Proof. exact label_round_trip2. Qed.
Theorem C48_larry : forall y k, flat k -> archivable y ->
  exists f, prun (save (Some y) (Some k)) empty_file = (f, Ok ()) /\ load f (Some k) = Ok y.
Proof. exact save_load. Qed.
Theorem C48_mixed : forall y k l, flat k -> valid y -> l ∈ llabel y -> mixed_label l ->
  (prun (save (Some y) (Some k)) empty_file).2 = Err TypeError.
Proof. exact save_mixed. Qed.
Example C48_example :
  load (prun (save (Some exd) (Some "k"%string)) empty_file).1 (Some "k"%string) = Ok exd /\
  load (prun (save (Some exo) (Some "k"%string)) empty_file).1 (Some "k"%string) = Ok exo /\
  (prun (save (Some exmix) (Some "k"%string)) empty_file).2 = Err TypeError.
Proof. by vm_compute. Qed.
Example C48_mixed_hyps : flat "k" /\ valid exmix /\ [LInt 1; LStr "a"] ∈ llabel exmix /\ mixed_label [LInt 1; LStr "a"].
Proof.
  split; [solve_flat|split; [exact exmix_valid|split; [simpl; right; left|]]].
  exists (LInt 1), (LStr "a"). split_and!; [left|right; left|done].
Qed.
(** Outside the property: a time zone is lost, and labels that are tuples can
    be saved but not loaded. *)
Example C48_timezone :
  let y := Larry (Nda DInt (Arr [1] [VInt 1])) [[LTime 1 2 3 4 (Some 60%Z)]] in
  load (prun (save (Some y) (Some "k"%string)) empty_file).1 (Some "k"%string) =
  Ok (Larry (Nda DInt (Arr [1] [VInt 1])) [[LTime 1 2 3 4 None]]).
Proof. by vm_compute. Qed.
Example C48_tuple :
  let y := Larry (Nda DInt (Arr [1] [VInt 1])) [[LTup [LInt 1; LInt 2]]] in
  (prun (save (Some y) (Some "k"%string)) empty_file).2 = Ok () /\
  load (prun (save (Some y) (Some "k"%string)) empty_file).1 (Some "k"%string) = Err TypeError.
Proof. by vm_compute. Qed.

(** C49: assignments that are interrupted.  At every point the key holds the
    new larry, or the old one, or nothing that can be loaded; it never holds
    anything else, and the other keys are not touched.  Missing: the last case
    should not happen; see the theorems below. *)
Theorem C49_never_mixed_partial : forall os k y f', Forall op_ok os -> flat k -> archivable y ->
  let f := (io_run empty_file os).1 in
  f' ∈ (io_setitem (Some k) (Some y) f).1 ->
  load f' (Some k) = Ok y \/ load f' (Some k) = load f (Some k) \/ load f' (Some k) = Err KeyError.
Proof. exact setitem_crash. Qed.
Theorem C49_others : forall a ms k y f', flat k -> NoDup ms.*1 ->
  f' ∈ (io_setitem (Some k) (Some y) (NGroup a ms)).1 ->
  forall k', flat k' -> k' <> k -> load f' (Some k') = load (NGroup a ms) (Some k').
Proof. exact setitem_others. Qed.
(** Every assignment to a stored key passes through a state in which neither
    the old nor the new larry can be loaded. *)
Theorem C49_crash_refuted : forall os k y old, Forall op_ok os -> flat k ->
  let f := (io_run empty_file os).1 in
  load f (Some k) = Ok old ->
  exists f', f' ∈ (io_setitem (Some k) (Some y) f).1 /\ load f' (Some k) = Err KeyError.
Proof. exact setitem_crash_window. Qed.
(** An assignment that fails because of the labels loses the old larry, and
    afterwards the key can neither be assigned nor deleted. *)
Theorem C49_failure_refuted : forall os k y l, Forall op_ok os -> flat k -> valid y -> l ∈ llabel y -> mixed_label l ->
  let f := (io_run empty_file os).1 in
  let f' := (prun (io_setitem (Some k) (Some y)) f).1 in
  (prun (io_setitem (Some k) (Some y)) f).2 = Err TypeError /\
  load f' (Some k) = Err KeyError /\
  (forall z, io_setitem (Some k) (Some z) f' = ([], Err KeyError)) /\
  io_delitem (Some k) f' = ([], Err KeyError).
Proof. exact setitem_failure. Qed.
Example C49_example :
  let f := (io_run empty_file [DPut "k" exm; DPut "j" exd]).1 in
  load f (Some "k"%string) = Ok exm /\
  ((fun f' => load f' (Some "k"%string)) <$> (io_setitem (Some "k"%string) (Some exd) f).1) =
    [Err KeyError; Err KeyError; Err KeyError; Err KeyError; Err KeyError; Err KeyError; Err KeyError; Ok exd] /\
  ((fun f' => load f' (Some "j"%string)) <$> (io_setitem (Some "k"%string) (Some exd) f).1) = replicate 8 (Ok exd) /\
  (prun (io_setitem (Some "k"%string) (Some exmix)) f).2 = Err TypeError /\
  load (prun (io_setitem (Some "k"%string) (Some exmix)) f).1 (Some "k"%string) = Err KeyError.
Proof. by vm_compute. Qed.

(** C50: repack. *)
Theorem C50_repack : forall (s : gmap string node) name r1 r2 ms,
  let name2 := (name ++ "_repack_tmp_" ++ r1)%string in
  let tmp := (name ++ "_repack_rename_tmp_" ++ r2)%string in
  s !! name = Some (NGroup false ms) -> NoDup ms.*1 -> s !! name2 = None -> s !! tmp = None ->
  exists t, repack r1 r2 name s = (t, Ok ()) /\ final s t = s /\
  (forall s', s' ∈ t -> (s' !! name = Some (NGroup false ms) \/ s' !! tmp = Some (NGroup false ms)) /\
     (forall n, n <> name -> n <> name2 -> n <> tmp -> s' !! n = s !! n)) /\
  (exists s', s' ∈ t /\ s' !! name = None).
Proof. exact repack_spec. Qed.
Example C50_example :
  let f := (io_run empty_file exops).1 in
  let s : gmap string node := {[ "a.hdf5"%string := f; "b"%string := empty_file ]} in
  (repack "wxyz" "abcd" "a.hdf5" s).2 = Ok () /\
  ((fun s' : gmap string node => (io_keys <$> s' !! "a.hdf5"%string, io_keys <$> s' !! "a.hdf5_repack_tmp_wxyz"%string,
      io_keys <$> s' !! "a.hdf5_repack_rename_tmp_abcd"%string)) <$> (repack "wxyz" "abcd" "a.hdf5" s).1) =
  let ks := ["a"; "c d"]%string in
  [ (Some ks, Some [], None); (Some ks, Some ["a"%string], None); (Some ks, Some ks, None);
    (None, Some ks, Some ks); (Some ks, None, Some ks); (Some ks, None, None) ].
Proof. by vm_compute. Qed.

Print Assumptions C47_dictionary.
Print Assumptions C47_type_error.
Print Assumptions C48_label.
Print Assumptions C48_larry.
Print Assumptions C48_mixed.
Print Assumptions C49_never_mixed_partial.
Print Assumptions C49_others.
Print Assumptions C49_crash_refuted.
Print Assumptions C49_failure_refuted.
Print Assumptions C50_repack.
