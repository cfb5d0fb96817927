(** Python's order on labels. *)
From Verif Require Export Lab.
From Coq Require Import Ascii.

(** Strings are ordered by their first different character, and a string
    before its continuations. *)
Inductive str_before : string -> string -> Prop :=
  | sb_end c t : str_before "" (String c t)
  | sb_differ c d s t : nat_of_ascii c < nat_of_ascii d -> str_before (String c s) (String d t)
  | sb_same c s t : str_before s t -> str_before (String c s) (String c t).
(** Microseconds since midnight. *)
Definition since_midnight (h m s us : Z) : Z := (((h * 60 + m) * 60 + s) * 1000000 + us)%Z.
Definition earlier_day (y mo d y' mo' d' : Z) : Prop :=
  (y < y' \/ y = y' /\ (mo < mo' \/ mo = mo' /\ d < d'))%Z.
Definition real_time (h m s us : Z) : Prop := (0 <= h < 24 /\ 0 <= m < 60 /\ 0 <= s < 60 /\ 0 <= us < 1000000)%Z.

(** [a < b]; tuples are ordered by their first different elements, and a tuple
    before its continuations. *)
Inductive before : lab -> lab -> Prop :=
  | before_int a b : (a < b)%Z -> before (LInt a) (LInt b)
  | before_str s t : str_before s t -> before (LStr s) (LStr t)
  | before_date d d' : (d < d')%Z -> before (LDate d) (LDate d')
  | before_time h m s us h' m' s' us' :
      (since_midnight h m s us < since_midnight h' m' s' us')%Z -> before (LTime h m s us None) (LTime h' m' s' us' None)
  | before_datetime y mo d h m s us y' mo' d' h' m' s' us' :
      earlier_day y mo d y' mo' d' \/
      (y = y' /\ mo = mo' /\ d = d' /\ (since_midnight h m s us < since_midnight h' m' s' us')%Z) ->
      before (LDatetime y mo d h m s us None) (LDatetime y' mo' d' h' m' s' us' None)
  | before_longer p x l : before (LTup p) (LTup (p ++ x :: l))
  | before_differ p x l y l' : before x y -> before (LTup (p ++ x :: l)) (LTup (p ++ y :: l')).

(** Whether Python 3 can order two labels: labels of one type, times and
    datetimes both with or both without an offset, tuples unless their first
    different elements cannot be ordered. *)
Inductive orderable : lab -> lab -> Prop :=
  | ord_int a b : orderable (LInt a) (LInt b)
  | ord_str s t : orderable (LStr s) (LStr t)
  | ord_date d d' : orderable (LDate d) (LDate d')
  | ord_time h m s us tz h' m' s' us' tz' : (tz = None <-> tz' = None) -> orderable (LTime h m s us tz) (LTime h' m' s' us' tz')
  | ord_datetime y mo d h m s us tz y' mo' d' h' m' s' us' tz' : (tz = None <-> tz' = None) ->
      orderable (LDatetime y mo d h m s us tz) (LDatetime y' mo' d' h' m' s' us' tz')
  | ord_left p l : orderable (LTup p) (LTup (p ++ l))
  | ord_right p l : orderable (LTup (p ++ l)) (LTup p)
  | ord_differ p x l y l' : x <> y -> orderable x y -> orderable (LTup (p ++ x :: l)) (LTup (p ++ y :: l')).

(** Labels whose times are real and have no offset. *)
Inductive plain : lab -> Prop :=
  | plain_int z : plain (LInt z)
  | plain_str s : plain (LStr s)
  | plain_date d : plain (LDate d)
  | plain_time h m s us : real_time h m s us -> plain (LTime h m s us None)
  | plain_datetime y mo d h m s us : real_time h m s us -> plain (LDatetime y mo d h m s us None)
  | plain_tup l : Forall plain l -> plain (LTup l).
