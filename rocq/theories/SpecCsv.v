(** Specification of text files. *)
From Verif Require Export SpecConvert.
From Coq Require Export Ascii Sorted.

(** The characters of a text. *)
Definition text := list ascii.
Definition letters (s : string) : text := String.list_ascii_of_string s.
Definition word (t : text) : string := String.string_of_list_ascii t.
Definition cr : ascii := "013"%char.
Definition nl : ascii := "010"%char.
Definition quote : ascii := "034"%char.
Definition nul : ascii := "000"%char.
(** Characters that can separate fields. *)
Definition separator (d : ascii) : Prop := d <> quote /\ d <> cr /\ d <> nl /\ d <> nul.

(** [z] holds the cells of [y], as floats, at the texts of their labels. *)
Definition text_copy (str : lab -> string) (y z : larry) : Prop :=
  valid z /\ ldtype z = DFloat /\
  Forall2 (fun l l' => StronglySorted lab_lt l' /\ l' ≡ₚ (fun a => LStr (str a)) <$> l) (llabel y) (llabel z) /\
  forall ls v, cell y ls = Some v -> cell z ((fun a => LStr (str a)) <$> ls) = Some (val_to_float v).

(** Files of fields (RFC 4180): a field is bare, or quoted with its quotes
    doubled; a line is a list of fields with separators in between, and an empty
    line is no field at all; lines end with a line feed, perhaps behind a
    carriage return, that may be missing behind the last line. *)
Fixpoint doubled (t : text) : text :=
  match t with
  | [] => []
  | c :: t => if decide (c = quote) then quote :: quote :: doubled t else c :: doubled t
  end.
Inductive field_of (d : ascii) : text -> text -> Prop :=
  | field_bare t : d ∉ t -> quote ∉ t -> cr ∉ t -> nl ∉ t -> nul ∉ t -> field_of d t t
  | field_quoted t : nul ∉ t -> field_of d (quote :: doubled t ++ [quote]) t.
Inductive fields_of (d : ascii) : text -> list text -> Prop :=
  | fields_one s f : field_of d s f -> fields_of d s [f]
  | fields_cons s f rest fs : field_of d s f -> fields_of d rest fs -> fields_of d (s ++ d :: rest) (f :: fs).
Definition line_of (d : ascii) (s : text) (r : list text) : Prop :=
  s = [] /\ r = [] \/ s <> [] /\ fields_of d s r.
Inductive file_of (d : ascii) : text -> list (list text) -> Prop :=
  | file_empty : file_of d [] []
  | file_last s r : s <> [] -> line_of d s r -> file_of d s [r]
  | file_line s e r t rows :
      line_of d s r -> e = [nl] \/ e = [cr; nl] -> file_of d t rows -> file_of d (s ++ e ++ t) (r :: rows).

(** The labelled value of a row: the last field is the value, the others are the
    labels. *)
Definition row_gives (float : string -> option num) (r : list text) (p : list lab * val) : Prop :=
  exists fs f n, r = fs ++ [f] /\ p.1 = (fun t => LStr (word t)) <$> fs /\ float (word f) = Some n /\ p.2 = VFloat n.

(** The pieces of a text between the separators. *)
Inductive splits (d : ascii) : text -> list text -> Prop :=
  | splits_one t : d ∉ t -> splits d t [t]
  | splits_cons t rest ts : d ∉ t -> splits d rest ts -> splits d (t ++ d :: rest) (t :: ts).

(** The table of a 1d or 2d larry: a label and a value per row; a row of column
    labels behind an empty corner, and rows of a label and values. *)
Definition table_of (str : lab -> string) (repr : val -> string) (y : larry) (table : list (list text)) : Prop :=
  match llabel y with
  | [l] =>
      length table = length l /\
      forall i a, l !! i = Some a -> exists v, cell y [a] = Some v /\ table !! i = Some [letters (str a); letters (repr v)]
  | [l0; l1] =>
      length table = S (length l0) /\ table !! 0 = Some ([] :: ((fun a => letters (str a)) <$> l1)) /\
      forall i a, l0 !! i = Some a -> exists r, table !! S i = Some (letters (str a) :: r) /\ length r = length l1 /\
        forall j b, l1 !! j = Some b -> exists v, cell y [a; b] = Some v /\ r !! j = Some (letters (repr v))
  | _ => False
  end.
