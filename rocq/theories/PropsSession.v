(** Property C07: chains of method calls keep larrys well formed. *)
From Verif Require Import SessionFacts.
From Verif Require Import PropsLarry PropsAlign PropsOps PropsNumeric PropsIndex PropsCsv.

(** The full statement is
<<
forall env p env', Forall valid env -> run env p = Ok env' -> Forall valid env'
>>
    It is false of the code: see the theorems [C07_..._refuted] below.  What
    holds is the statement for programs without the calls that [fine] leaves
    out. *)
Theorem C07_integrity_partial : forall p env env',
  Forall valid env -> fine_run env p -> run env p = Ok env' -> Forall valid env'.
Proof. exact run_valid. Qed.
Theorem C07_call_partial : forall env c env',
  Forall valid env -> fine env c -> exec env c = Ok env' -> Forall valid env'.
Proof. exact exec_valid. Qed.

(** [maplabel] with a function that gives two labels the same image. *)
Theorem C07_maplabel_refuted : exists env func env',
  Forall valid env /\ run env [CMaplabel 0 func None] = Ok env' /\ ~ Forall valid env'.
Proof.
  exists [ex1], (fun _ => LStr "z"). eexists. split; [apply valid1, ex1_valid|]. split; [vm_compute; reflexivity|].
  intros H. inversion_clear H as [|? ? _ H']. inversion_clear H' as [|? ? H _]. destruct H as (_ & _ & _ & H).
  inversion_clear H as [|? ? H' _]. inversion_clear H' as [|? ? H _]. apply H. left.
Qed.
(** [squeeze] of a larry with one element has no axes at all. *)
Theorem C07_squeeze_refuted : exists env env',
  Forall valid env /\ run env [CSqueeze 0] = Ok env' /\ ~ Forall valid env'.
Proof.
  exists [Larry (Nda DFloat (Arr [1; 1] [vf 4])) [[LStr "a"]; [LStr "b"]]]. eexists. split; [apply valid1; solve_valid|]. split; [vm_compute; reflexivity|].
  intros H. inversion_clear H as [|? ? _ H']. inversion_clear H' as [|? ? H _]. by destruct H as (_ & H & _).
Qed.
(** An array that has more axes than the larry it is added to. *)
Theorem C07_array_refuted : exists env a env',
  Forall valid env /\ nda_wf a /\ run env [CArithArr AAdd 0 a] = Ok env' /\ ~ Forall valid env'.
Proof.
  exists [ex1], (lx ex2). eexists. split; [apply valid1, ex1_valid|]. split; [apply ex2_valid|]. split; [vm_compute; reflexivity|].
  intros H. inversion_clear H as [|? ? _ H']. inversion_clear H' as [|? ? H _]. destruct H as (_ & _ & H & _). by vm_compute in H.
Qed.
(** Strings compared with bools. *)
Theorem C07_compare_refuted : exists env env',
  Forall valid env /\ run env [CCompare CEq 0 1] = Ok env' /\ ~ Forall valid env'.
Proof.
  exists [exs; exb]. eexists. split; [apply valid2; [apply exs_valid|apply exb_valid]|]. split; [vm_compute; reflexivity|].
  intros H. inversion_clear H as [|? ? _ H']. inversion_clear H' as [|? ? _ H]. inversion_clear H as [|? ? H' _].
  destruct H' as (_ & _ & H & _). by vm_compute in H.
Qed.

(** A program: flip, take, morph to new labels, merge the result into the
    original, assign in place, reduce along an axis. *)
Definition ex_program : list call :=
  [CFlipaxis 0 (Some 1%Z); CTake 1 [1%Z; 0%Z] 0; CMorph 2 [LInt 9; LInt 4] 1; CSetitem 3 (XTuple [IInt 0; ISlice slice_all]) (SVal (vf 8));
   CMerge 3 0 true; CReduce RSum 4 (Some 0%Z)].
Example ex_program_fine : fine_run [ex2] ex_program.
Proof.
  cbn [fine_run ex_program]. repeat (split; [exact I|]; intros ? _). exact I.
Qed.
Definition last_larry (r : res (list larry)) : option larry := match r with Ok env => last env | Err _ => None end.
Example C07_example :
  Forall valid [ex2] /\ fine_run [ex2] ex_program /\
  last_larry (run [ex2] ex_program) = Some (
    Larry (Nda DFloat (Arr [4] [vf 8; vf 9; vf 5; vf 7])) [[LInt 4; LInt 5; LInt 7; LInt 9]]) /\
  last_larry (run [ex2] (take 5 ex_program)) = Some (
    Larry (Nda DFloat (Arr [2; 4] [VFloat NaN; vf 3; vf 1; vf 2; vf 8; vf 6; vf 4; vf 5]))
      [[LStr "x"; LStr "y"]; [LInt 4; LInt 5; LInt 7; LInt 9]]).
Proof.
  split; [apply valid1, ex2_valid|]. split; [apply ex_program_fine|]. by_compute.
Qed.
(** Another one: read a file, convert, moving sums, keep what is above 2, power,
    reduce. *)
Definition ex_more : list call :=
  [CFromcsv false ex_float (letters "a,x,1
a,y,2
b,x,3
b,y,4
") "," 0; CAstype 0 DInt; CMove MSum 1 2 (Some 0%Z); CKeepX 0 (Some CGt) (vf 2) true; CPower (fun n _ => num_mul n n) 0 (VInt 2);
   CLastrankDecay (fun _ => num_of_Z 1) 4 0 (num_of_Z 1)].
Example C07_more_example :
  fine_run [] ex_more /\
  run [] ex_more = Ok (let l := [[LStr "a"; LStr "b"]; [LStr "x"; LStr "y"]] in [
    Larry (Nda DFloat (Arr [2; 2] [vf 1; vf 2; vf 3; vf 4])) l;
    Larry (Nda DInt (Arr [2; 2] [VInt 1; VInt 2; VInt 3; VInt 4])) l;
    Larry (Nda DFloat (Arr [2; 2] [VFloat NaN; VFloat NaN; vf 4; vf 6])) l;
    Larry (Nda DFloat (Arr [1; 2] [vf 3; vf 4])) [[LStr "b"]; [LStr "x"; LStr "y"]];
    Larry (Nda DFloat (Arr [2; 2] [vf 1; vf 4; vf 9; vf 16])) l;
    Larry (Nda DFloat (Arr [2] [vf 1; vf 1])) [[LStr "x"; LStr "y"]]]).
Proof.
  split; [cbn [fine_run ex_more]; repeat (split; [exact I|]; intros ? _); exact I|]. refine (bool_decide_unpack _ _). by vm_compute.
Qed.

Print Assumptions C07_integrity_partial.
Print Assumptions C07_call_partial.
Print Assumptions C07_maplabel_refuted.
Print Assumptions C07_squeeze_refuted.
Print Assumptions C07_array_refuted.
Print Assumptions C07_compare_refuted.
