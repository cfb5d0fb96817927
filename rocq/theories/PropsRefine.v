(** C74: sharing cannot be seen unless something is changed in place. *)
From Verif Require Import PropsLarry PropsAlign PropsOps PropsNumeric PropsSession PropsHeap.
From Verif Require Import SessionFacts RefineMerge.
From Verif Require Import SpecHeap.

(** A call, with views and shared lists of labels, returns larrys with the
    values computed from the values of its arguments, or raises the same
    exception. *)
Theorem C74_call : forall h ps env c, in_place c = None -> may_write c = false ->
  Forall2 (has h) ps env -> Forall valid env ->
  match results env c with
  | Ok (_, zs) => exists h' rs, hexec ps c h = (h', Ok rs) /\ Forall2 (has h') (larrys_of rs) zs
  | Err e => exists h', hexec ps c h = (h', Err e)
  end.
Proof.
  intros h ps env c Hi Hw Hps Hv. pose proof (hexec_gives h ps env c Hi Hw Hps Hv) as Hg.
  destruct (results env c) as [[o zs]|e]; simpl in Hg.
  - destruct Hg as (h' & rs & H & _ & Hz). by exists h', rs.
  - destruct Hg as (h' & H & _). by exists h'.
Qed.
(** A call that works in place gives its larry the value computed. *)
Theorem C74_in_place : forall h ps env c i, in_place c = Some i -> Forall2 (has h) ps env -> Forall valid env ->
  match results env c with
  | Ok (o, zs) => exists z p h', o = Some (i, z) /\ zs = [] /\ ps !! i = Some p /\ hexec ps c h = (h', Ok []) /\ has h' p z
  | Err e => exists h', hexec ps c h = (h', Err e)
  end.
Proof. exact hexec_becomes. Qed.
(** A program of calls that do not work in place: sharing is not seen. *)
Theorem C74_program : forall prog h ps env, Forall (fun c => in_place c = None /\ may_write c = false) prog ->
  Forall2 (has h) ps env -> Forall valid env -> fine_run env prog ->
  match run env prog with
  | Ok env' => exists h' ps', hrun ps prog h = (h', Ok ps') /\ Forall2 (has h') ps' env'
  | Err e => exists h', hrun ps prog h = (h', Err e)
  end.
Proof. exact hrun_gives. Qed.
(** A program that works in place, but without [__getitem__], [pull],
    [squeeze], [lix] and [merge], on larrys that share nothing: nothing is
    ever shared, and no change is seen in another larry. *)
Theorem C74_program_in_place : forall prog h ps env, Forall (fun c => may_share c = false /\ may_write c = false) prog ->
  Forall2 (has h) ps env -> Forall valid env -> separate h ps -> fine_run env prog ->
  match run env prog with
  | Ok env' => exists h' ps', hrun ps prog h = (h', Ok ps') /\ Forall2 (has h') ps' env' /\ separate h' ps'
  | Err e => exists h', hrun ps prog h = (h', Err e)
  end.
Proof. exact hrun_separate. Qed.
(** [merge] may write to its first argument, also when the two share memory;
    what it returns is the value computed. *)
Theorem C74_merge : forall h ps env i j update, Forall2 (has h) ps env -> Forall valid env ->
  match results env (CMerge i j update) with
  | Ok (_, zs) => exists h' rs, hexec ps (CMerge i j update) h = (h', Ok rs) /\ Forall2 (has h') (larrys_of rs) zs
  | Err e => exists h', hexec ps (CMerge i j update) h = (h', Err e)
  end.
Proof. exact hexec_merge. Qed.
(** [add] and its like with [missone] or [misstwo] write to both arguments;
    what they return is the value computed if the arguments share nothing. *)
Theorem C74_binaryop : forall h ps env op i j join cast missone misstwo, Forall2 (has h) ps env -> Forall valid env ->
  (forall p q, ps !! i = Some p -> ps !! j = Some q -> apart h p q) ->
  match results env (CBinaryop op i j join cast missone misstwo) with
  | Ok (_, zs) => exists h' rs, hexec ps (CBinaryop op i j join cast missone misstwo) h = (h', Ok rs) /\ Forall2 (has h') (larrys_of rs) zs
  | Err e => exists h', hexec ps (CBinaryop op i j join cast missone misstwo) h = (h', Err e)
  end.
Proof. exact hexec_binaryop. Qed.
(** Memory with new larrys is as these theorems want it. *)
Theorem C74_start : forall ys, Forall2 (has (mem ys)) (seq 0 (length ys)) ys /\ separate (mem ys) (seq 0 (length ys)).
Proof. intros ys. destruct (mapC_new_gives ys (Heap [] [] [] [])) as (h' & H & _ & H2 & H3 & _). unfold mem. by rewrite H. Qed.

(** The first four calls of [ex_sharing] make views; the two models agree. *)
Definition final (r : res (list larry)) : list larry := match r with Ok env => env | Err _ => [] end.
Definition ex_views : list call := take 4 ex_sharing ++ [CArith AAdd 1 4; CReduce RSum 1 (Some 1%Z); CMorph 3 [LInt 9; LInt 1] 0].
Example C74_example :
  Forall (fun c => in_place c = None /\ may_write c = false) ex_views /\ fine_run [ex2] ex_views /\ Forall valid [ex2] /\
  (length (final (run [ex2] ex_views)) = 8 /\
   (read_larry (after [ex2] ex_views) <$> seq 0 8) = Some <$> final (run [ex2] ex_views) /\
   read_larry (after [ex2] ex_views) 3 = Some (Larry (Nda DInt (Arr [2] (VInt <$> [5; 6]%Z))) [[LInt 9; LInt 5]]) /\
   read_larry (after [ex2] ex_views) 7 = Some (Larry (Nda DFloat (Arr [2] [vf 5; VFloat NaN])) [[LInt 9; LInt 1]])).
Proof.
  split; [by repeat constructor|]. split; [cbn [fine_run ex_views app take ex_sharing]; repeat (split; [exact I|]; intros ? _); exact I|].
  split; [apply valid1, ex2_valid|]. by_compute.
Qed.
(** A program that works in place. *)
Definition ex_writes : list call :=
  [CCopy 0; CT 0; CSetitem 1 (XInt 0) (SVal (VInt 50)); CFill 2 (VInt 7); CShufflelabel (fun _ _ => 0) 0 None;
   CLag 1 1 (Some 1%Z); CSet 3 [LStr "y"; LInt 5] (VInt (-1))].
Example C74_in_place_example :
  Forall (fun c => may_share c = false /\ may_write c = false) ex_writes /\ fine_run [ex2] ex_writes /\ Forall valid [ex2] /\
  (length (final (run [ex2] ex_writes)) = 4 /\
   (read_larry (after [ex2] ex_writes) <$> seq 0 4) = Some <$> final (run [ex2] ex_writes) /\
   read_larry (after [ex2] ex_writes) 1 = Some (Larry (Nda DInt (Arr [2; 3] (VInt <$> [50; 50; 50; 4; 5; 6]%Z))) (llabel ex2)) /\
   read_larry (after [ex2] ex_writes) 3 = Some (Larry (Nda DInt (Arr [2; 2] (VInt <$> [50; 50; 4; -1]%Z))) [[LStr "x"; LStr "y"]; [LInt 9; LInt 5]])).
Proof.
  split; [by repeat constructor|]. split; [cbn [fine_run ex_writes]; repeat (split; [exact I|]; intros ? _); exact I|].
  split; [apply valid1, ex2_valid|]. by_compute.
Qed.
(** The data of the second larry is what the first lacks, and the other way
    round: [merge] writes to the first, the sum with [missone] to both. *)
Definition ex_left : larry := Larry (Nda DFloat (Arr [3] [vf 1; VFloat NaN; VFloat NaN])) [[LStr "a"; LStr "b"; LStr "c"]].
Definition ex_right : larry := Larry (Nda DFloat (Arr [3] [VFloat NaN; vf 2; VFloat NaN])) [[LStr "a"; LStr "b"; LStr "c"]].
Definition ex_written (prog : list call) : list (option (list val)) := (fun p => (fun y => data (larr y)) <$> read_larry (after [ex_left; ex_right] prog) p) <$> [0; 1; 2].
Example C74_merge_example :
  Forall valid [ex_left; ex_right] /\
  (ex_written [CMerge 0 1 false] = [Some [vf 1; vf 2; VFloat NaN]; Some [VFloat NaN; vf 2; VFloat NaN]; None] /\
   ex_written [CBinaryop AAdd 0 1 (JOne JInner) true (Some (vf 10)) None] =
     [Some [vf 1; vf 10; VFloat NaN]; Some [vf 10; vf 2; VFloat NaN]; Some [vf 11; vf 12; VFloat NaN]] /\
   final (run [ex_left; ex_right] [CMerge 0 1 false]) = [ex_left; ex_right; Larry (Nda DFloat (Arr [3] [vf 1; vf 2; VFloat NaN])) (llabel ex_left)] /\
   (match (hexec [0; 1] (CMerge 0 1 false) (mem [ex_left; ex_right])).2 with Ok rs => larrys_of rs | Err _ => [] end) = [0] /\
   final (run [ex_left; ex_right] [CBinaryop AAdd 0 1 (JOne JInner) true (Some (vf 10)) None]) =
     [ex_left; ex_right; Larry (Nda DFloat (Arr [3] [vf 11; vf 12; VFloat NaN])) (llabel ex_left)]).
Proof. split; [repeat constructor; solve_valid|]. by_compute. Qed.
(** With views and work in place the two models differ: larry 0 is changed
    through larry 1 and larry 3. *)
Example C74_both : (read_larry (after [ex2] ex_sharing) 0 <> Some ex2 /\ hd_error (final (run [ex2] ex_sharing)) = Some ex2).
Proof. by_compute. Qed.

Print Assumptions C74_call.
Print Assumptions C74_in_place.
Print Assumptions C74_program.
Print Assumptions C74_program_in_place.
Print Assumptions C74_merge.
Print Assumptions C74_binaryop.
Print Assumptions C74_start.
