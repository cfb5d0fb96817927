(** C75: larrys in groups of an archive (la/io.py). *)
From Verif Require Import NestedFacts.
From Verif Require Import PropsLarry PropsAlign PropsOps PropsNumeric PropsArchive.

(** Keys with slashes put a larry in nested groups.  An archive whose keys
    do not lead through each other is a dictionary, as long as no key with a
    slash is assigned to twice.  Missing: the other programs, see below. *)
Theorem C75_dictionary_partial : forall K os,
  Forall good_path K -> antichain K -> Forall (nested_op K) os -> puts_new (fun _ => None) os ->
  let f := (io_run empty_file os).1 in
  let d := (dict_run (fun _ => None) os).1 in
  (io_run empty_file os).2 = (dict_run (fun _ => None) os).2 /\
  NoDup (io_keys f) /\ (forall k, k ∈ io_keys f <-> is_Some (d k)) /\
  (forall k, keyed K k -> load f (Some k) = of_opt KeyError (d k) /\ io_getitem f (Some k) = of_opt KeyError (d k)).
Proof. exact nested_dictionary. Qed.
(** Assigning again to a key with a slash always fails; the old larry stays. *)
Theorem C75_again_refuted : forall K os k y z,
  Forall good_path K -> antichain K -> Forall (nested_op K) os -> puts_new (fun _ => None) os ->
  keyed K k -> ~ flat k -> ldtype z <> DObj ->
  let f := (io_run empty_file os).1 in
  load f (Some k) = Ok y -> prun (io_setitem (Some k) (Some z)) f = (f, Err RuntimeError).
Proof. exact nested_again. Qed.
(** A group that is left empty blocks its name. *)
Theorem C75_group_refuted : exists os k z,
  Forall (fun r => r = Ok ()) (io_run empty_file os).2 /\ io_keys (io_run empty_file os).1 = [] /\ flat k /\ archivable z /\
  (prun (io_setitem (Some k) (Some z)) (io_run empty_file os).1).2 = Err KeyError.
Proof.
  exists [DPut "a/b" exm; DDel "a/b"], "a"%string, exd.
  split; [vm_compute; by repeat constructor|]. split; [by vm_compute|]. split; [solve_flat|]. split; [exact exd_archivable|by vm_compute].
Qed.
(** A larry inside another: deleting one deletes both, [clear] fails. *)
Theorem C75_inside_refuted : exists os k k',
  Forall (fun r => r = Ok ()) (io_run empty_file os).2 /\ k <> k' /\
  let f := (io_run empty_file os).1 in
  io_keys f = [k; k'] /\ load f (Some k') = Ok exd /\
  load (prun (io_delitem (Some k)) f).1 (Some k') = Err KeyError /\
  (prun io_clear f).2 = Err KeyError.
Proof.
  exists [DPut "a" exm; DPut "a/b" exd], "a"%string, "a/b"%string.
  split; [vm_compute; by repeat constructor|]. split; [done|]. split; [by vm_compute|]. split; [by vm_compute|]. by vm_compute.
Qed.
(** A key that leads through a dataset: ValueError, and nothing is written. *)
Theorem C75_through_data : forall f p q n y, good_path p -> good_path (p ++ q) ->
  h5_get f (key_of p) = Some n -> (forall a ms, n <> NGroup a ms) ->
  prun (save (Some y) (Some (key_of (p ++ q)))) f = (f, Err ValueError).
Proof. exact save_through. Qed.
Example C75_through_example :
  let f := (io_run empty_file [DPut "a" exm]).1 in
  h5_get f "a/x" = Some (NX (lx exm)) /\
  (prun (save (Some exd) (Some "a/x"%string)) f).2 = Err ValueError /\ (prun (save (Some exd) (Some "a/x/b"%string)) f).2 = Err ValueError /\
  (prun (save (Some exd) (Some "a/b"%string)) f).2 = Ok ().
Proof. by vm_compute. Qed.
(** Larrys in two groups, one below the other. *)
Definition ex_paths : list (list string) := [["prices"; "us"; "x"]; ["prices"; "de"]; ["returns"]]%string.
Definition ex_nested : list dict_op :=
  [DPut "prices/us/x" exm; DPut "returns" exd; DPut "prices/de" exo; DPut "returns" exm; DDel "prices/us/x"; DDel "prices/us/x"; DPut "prices/us/x" exd].
Example C75_example :
  Forall good_path ex_paths /\ antichain ex_paths /\ Forall (nested_op ex_paths) ex_nested /\ puts_new (fun _ => None) ex_nested /\
  (io_run empty_file ex_nested).2 = [Ok (); Ok (); Ok (); Ok (); Ok (); Err KeyError; Ok ()] /\
  io_keys (io_run empty_file ex_nested).1 = ["prices/us/x"; "prices/de"; "returns"]%string /\
  load (io_run empty_file ex_nested).1 (Some "prices/us/x"%string) = Ok exd /\
  load (io_run empty_file ex_nested).1 (Some "prices/de"%string) = Ok exo /\
  load (io_run empty_file ex_nested).1 (Some "prices/us"%string) = Err KeyError /\
  (prun (io_setitem (Some "prices/de"%string) (Some exm)) (io_run empty_file ex_nested).1).2 = Err RuntimeError.
Proof.
  split; [unfold ex_paths; repeat (apply Forall_cons; split; [split; [done|]; repeat (apply Forall_cons; split; [solve_flat|]); by apply Forall_nil|]); by apply Forall_nil|].
  split.
  { intros p q Hp Hq Hpq. unfold ex_paths in Hp, Hq. repeat (apply elem_of_cons in Hp as [-> |Hp]); try (by apply elem_of_nil in Hp);
      repeat (apply elem_of_cons in Hq as [-> |Hq]); try (by apply elem_of_nil in Hq); try done;
      destruct Hpq as [r Hr]; discriminate Hr. }
  split.
  { assert (forall p, p ∈ ex_paths -> keyed ex_paths (key_of p)) as Hk by (intros p Hp; by exists p).
    unfold ex_nested. 
    pose proof (Hk ["prices"; "us"; "x"]%string ltac:(left)) as K1.
    pose proof (Hk ["prices"; "de"]%string ltac:(right; left)) as K2.
    pose proof (Hk ["returns"]%string ltac:(right; right; left)) as K3.
    repeat (apply Forall_cons; split; cbn [nested_op]; [first [assumption|split; [assumption|first [exact exm_archivable|exact exd_archivable|exact exo_archivable]]]|]).
    by apply Forall_nil. }
  split.
  { cbn [puts_new ex_nested dict_step fst]. repeat split; auto. right. solve_flat. }
  by vm_compute.
Qed.

Print Assumptions C75_dictionary_partial.
Print Assumptions C75_again_refuted.
Print Assumptions C75_group_refuted.
Print Assumptions C75_inside_refuted.
Print Assumptions C75_through_data.
