(** Specification of archives of larrys. *)
From Verif Require Export Spec.
From Coq Require Import Ascii.

(** A key without groups. *)
Definition slash : ascii := "/"%char.
Fixpoint has_char (c : ascii) (s : string) : Prop :=
  match s with EmptyString => False | String d s' => c = d \/ has_char c s' end.
Definition flat (k : string) : Prop := k <> ""%string /\ k <> "."%string /\ ~ has_char slash k.

(** No NUL character at the end. *)
Fixpoint last_char (s : string) : option ascii :=
  match s with EmptyString => None | String c EmptyString => Some c | String _ s' => last_char s' end.
Definition no_final_nul (s : string) : Prop := last_char s <> Some "000"%char.
(** Labels of one type that an archive keeps: 64 bit integers, strings, dates,
    and times and datetimes without time zone. *)
Definition plain_label (l : list lab) : Prop :=
  (forall a, a ∈ l -> exists z, a = LInt z /\ (- 2 ^ 63 <= z < 2 ^ 63)%Z) \/
  (forall a, a ∈ l -> exists s, a = LStr s /\ no_final_nul s) \/
  (forall a, a ∈ l -> exists d, a = LDate d) \/
  (forall a, a ∈ l -> exists h m s us, a = LTime h m s us None) \/
  (forall a, a ∈ l -> exists y mo d h m s us, a = LDatetime y mo d h m s us None).
Definition archivable (y : larry) : Prop := valid y /\ ldtype y <> DObj /\ Forall plain_label (llabel y).

(** The type of a label. *)
Definition lab_kind (a : lab) : nat :=
  match a with LInt _ => 0 | LStr _ => 1 | LDate _ => 2 | LTime _ _ _ _ _ => 3 | LDatetime _ _ _ _ _ _ _ _ => 4 | LTup _ => 5 end.
Definition mixed_label (l : list lab) : Prop := exists a b, a ∈ l /\ b ∈ l /\ lab_kind a <> lab_kind b.

(** Dictionaries of larrys. *)
Definition ldict := string -> option larry.
Inductive dict_op := DPut (k : string) (y : larry) | DDel (k : string) | DClear.
Definition dict_step (d : ldict) (o : dict_op) : ldict * res unit :=
  match o with
  | DPut k y => (fun k' => if decide (k' = k) then Some y else d k', Ok ())
  | DDel k => match d k with
              | Some _ => (fun k' => if decide (k' = k) then None else d k', Ok ())
              | None => (d, Err KeyError)
              end
  | DClear => (fun _ => None, Ok ())
  end.
(** All results, and the dictionary in the end. *)
Fixpoint dict_run (d : ldict) (os : list dict_op) : ldict * list (res unit) :=
  match os with
  | [] => (d, [])
  | o :: os' => let '(d', r) := dict_step d o in let '(d'', rs) := dict_run d' os' in (d'', r :: rs)
  end.
Definition op_ok (o : dict_op) : Prop :=
  match o with DPut k y => flat k /\ archivable y | DDel k => flat k | DClear => True end.
