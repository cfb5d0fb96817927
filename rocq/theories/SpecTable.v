(** Specification of tables drawn with characters, and of wrapped text. *)
From Verif Require Export SpecCsv.

Definition sp : ascii := " "%char.
Inductive justification := ToLeft | ToRight | ToCenter.
(** The look of a table: the text that lines are drawn with, what stands between
    the columns, at the beginning and at the end of a row, the justification, a
    line below the first row, lines around all rows. *)
Record style := Style {
  st_char : text; st_delim : text; st_prefix : text; st_postfix : text;
  st_justify : justification; st_header : bool; st_separate : bool }.

(** A justification is asked for by its name, in small or capital letters. *)
Definition justification_name (j : justification) : string :=
  match j with ToLeft => "left" | ToRight => "right" | ToCenter => "center" end.
Definition either_case (c u : ascii) : Prop := u = c \/ nat_of_ascii c = nat_of_ascii u + 32.
Definition names_justification (s : string) (j : justification) : Prop :=
  Forall2 either_case (letters (justification_name j)) (letters s).

(** [c] is [s] in a field of some width. *)
Definition in_field (j : justification) (w : nat) (s c : text) : Prop :=
  length c = w /\ exists a b, c = replicate a sp ++ s ++ replicate b sp /\
    match j with ToLeft => a = 0 | ToRight => b = 0 | ToCenter => a <= S b /\ b <= S a end.
Inductive beside (delim : text) : list text -> text -> Prop :=
  | beside_one c : beside delim [c] c
  | beside_more c cs t : beside delim cs t -> beside delim (c :: cs) (c ++ delim ++ t).
(** A line of a row: a field per column. *)
Definition row_line (st : style) (ws : list nat) (ss : list text) (line : text) : Prop :=
  exists cs mid, Forall3 (in_field (st_justify st)) ws ss cs /\ beside (st_delim st) cs mid /\
    line = st_prefix st ++ mid ++ st_postfix st.
(** The lines of a row: as many as the entry with the most lines has. *)
Definition row_lines (st : style) (ws : list nat) (row : list text) (lines : list text) : Prop :=
  exists pieces, Forall2 (splits nl) row pieces /\
    (Forall (fun ps : list text => length ps <= length lines) pieces /\ exists ps, ps ∈ pieces /\ length ps = length lines) /\
    forall i line, lines !! i = Some line -> row_line st ws ((fun ps => default [] (ps !! i)) <$> pieces) line.
(** The rows; a bar below every row if they are separated, else below the first
    if it is a header. *)
Inductive table_lines (st : style) (bar : text) (ws : list nat) : bool -> list (list text) -> list text -> Prop :=
  | rows_end hd : table_lines st bar ws hd [] []
  | rows_row hd row rows ls rest : row_lines st ws row ls -> table_lines st bar ws false rows rest ->
      table_lines st bar ws hd (row :: rows) (ls ++ (if st_separate st || hd then [bar] else []) ++ rest).
(** The width of a column: that of its longest line. *)
Definition column_width (rows : list (list text)) (k w : nat) : Prop :=
  let line s := exists row t ps, row ∈ rows /\ row !! k = Some t /\ splits nl t ps /\ s ∈ ps in
  (forall s, line s -> length s <= w) /\ exists s, line s /\ length s = w.
Definition table_width (st : style) (ws : list nat) : nat :=
  length (st_prefix st) + length (st_postfix st) + sum_list ws + length (st_delim st) * (length ws - 1).
(** [t] is the table of [rows]. *)
Definition drawn (st : style) (rows : list (list text)) (t : text) : Prop :=
  exists ws bar lines, (forall row, row ∈ rows -> length row = length ws) /\
    (forall k w, ws !! k = Some w -> column_width rows k w) /\
    bar = concat (replicate (table_width st ws) (st_char st)) /\
    table_lines st bar ws (st_header st) rows lines /\
    t = concat ((fun l => l ++ [nl]) <$> ((if st_separate st then [bar] else []) ++ lines)).
(** The lines of a text that ends with a line feed. *)
Definition has_lines (t : text) (ls : list text) : Prop := splits nl t (ls ++ [[]]).

(** Text in pieces of a width. *)
Definition cut_in (w : nat) (t : text) (ps : list text) : Prop :=
  concat ps = t /\ forall i p, ps !! i = Some p -> 0 < length p <= w /\ (S i < length ps -> length p = w).
(** Some spaces have become line feeds. *)
Definition breaks_of (t t' : text) : Prop := Forall2 (fun c c' => c' = c \/ c = sp /\ c' = nl) t t'.
(** The characters that are shown. *)
Definition white (c : ascii) : Prop := c = sp \/ c = nl \/ c = cr \/ c = "009"%char \/ c = "011"%char \/ c = "012"%char.
Global Instance white_dec c : Decision (white c).
Proof. unfold white. apply _. Defined.
Definition shown (t : text) : text := filter (fun c => ~ white c) t.
