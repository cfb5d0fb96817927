(** C78: tables and wrapped text (la/external/prettytable.py, la/io.py). *)
From Verif Require Import PropsNumeric PropsArchive TableFacts.
Ltac bare := refine (bool_decide_unpack _ _); by vm_compute.

(** A table of two or more columns that takes two or more lines: columns as wide
    as their longest line, entries in their fields, bars as long as the rows.
    Missing: one column, one row of single lines, and rows of different
    lengths. *)
Theorem C78_table_partial : forall st justify wrap rows n,
  1 < n -> Forall (fun row => length row = n) rows -> rows <> [] ->
  (1 < length rows \/ exists row t, row ∈ rows /\ t ∈ row /\ nl ∈ wrap t) -> names_justification justify (st_justify st) ->
  exists t, indent rows (st_header st) (st_char st) (st_delim st) justify (st_separate st) (st_prefix st) (st_postfix st) wrap = Ok t /\
    drawn st ((fun row : list text => wrap <$> row) <$> rows) t.
Proof. exact indent_drawn. Qed.
(** Only the three justifications can be asked for. *)
Theorem C78_justification : forall rows header char delim justify separate prefix postfix wrap t,
  indent rows header char delim justify separate prefix postfix wrap = Ok t -> exists j, names_justification justify j.
Proof. exact indent_no_name. Qed.
(** All lines of a table that is drawn as it should are equally long. *)
Theorem C78_lines : forall st rows t, drawn st rows t -> length (st_char st) = 1 ->
  nl ∉ st_char st -> nl ∉ st_delim st -> nl ∉ st_prefix st -> nl ∉ st_postfix st ->
  exists w ls, has_lines t ls /\ Forall (fun l => length l = w) ls.
Proof. exact drawn_lines. Qed.
(** The entries of a table of one column fall apart into characters. *)
Theorem C78_one_column_refuted : exists t,
  indent [[letters "ab"]; [letters "c"]] true (letters "-") (letters "  ") "left" false [] [] (fun t => t) = Ok t /\
  t = letters "a  b   " ++ [nl] ++ letters "-------" ++ [nl] ++ letters "c" ++ [nl] /\
  ~ drawn archive_style [[letters "ab"]; [letters "c"]] t.
Proof.
  eexists. split_and!; [vm_compute; reflexivity|by vm_compute|].
  apply (not_drawn _ _ _ (letters <$> ["a  b   "; "-------"; "c"]%string) (letters "a  b   ") (letters "c")); [done|by bare..|by vm_compute|by repeat constructor|by repeat constructor|done].
Qed.
(** The columns of a table of one row are taken to be one character wide, and an
    empty entry is an error. *)
Theorem C78_one_row_refuted :
  (exists t, indent [letters <$> ["larry"; "dtype"]%string] true (letters "-") (letters "  ") "left" false [] [] (fun t => t) = Ok t /\
     t = letters "larry  dtype" ++ [nl] ++ letters "----" ++ [nl] /\
     ~ drawn archive_style [letters <$> ["larry"; "dtype"]%string] t) /\
  indent [letters <$> ["larry"; ""]%string] true (letters "-") (letters "  ") "left" false [] [] (fun t => t) = Err ValueError.
Proof.
  split; [|done]. eexists. split_and!; [vm_compute; reflexivity|by vm_compute|].
  apply (not_drawn _ _ _ (letters <$> ["larry  dtype"; "----"]%string) (letters "larry  dtype") (letters "----")); [done|by bare..|by vm_compute|by repeat constructor|by repeat constructor|done].
Qed.
(** A missing entry counts as four characters. *)
Theorem C78_short_row_refuted : exists t,
  indent [letters <$> ["a"; "b"]%string; letters <$> ["a"; "b"; "c"]%string] true (letters "-") (letters "  ") "left" false [] [] (fun t => t) = Ok t /\
  t = letters "a  b" ++ [nl] ++ letters "----------" ++ [nl] ++ letters "a  b  c   " ++ [nl].
Proof. by eexists. Qed.
Example C78_example : exists t,
  indent [letters <$> ["First Name"; "Age"; "Position"]%string; letters <$> ["John"; "24"; "Software Engineer"]%string]
    true (letters "-") (letters " | ") "Center" true (letters "| ") (letters " |") (fun t => wrap_onspace t 10) = Ok t /\
  t = concat ((fun s => letters s ++ [nl]) <$>
    ["-------------------------------"; "| First Name | Age | Position |"; "-------------------------------";
     "|    John    |  24 | Software |"; "|            |     | Engineer |"; "-------------------------------"]%string).
Proof. by eexists. Qed.

Example C78_justification_example :
  indent [letters <$> ["a"; "bc"]%string; letters <$> ["d"; "e"]%string] false (letters "-") (letters " ") "RIGHT" false [] [] (fun t => t) =
    Ok (letters "a bc" ++ [nl] ++ letters "d  e" ++ [nl]) /\
  indent [letters <$> ["a"; "bc"]%string; letters <$> ["d"; "e"]%string] false (letters "-") (letters " ") "middle" false [] [] (fun t => t) =
    Err KeyError.
Proof. by vm_compute. Qed.

(** The table of an archive with larrys: a line for each, by name. *)
Theorem C78_archive_partial : forall str_dtype str_shape os k0 y0, Forall op_ok os ->
  let f := (io_run empty_file os).1 in
  let d := (dict_run (fun _ => None) os).1 in
  d k0 = Some y0 ->
  exists t ks rows, io_repr str_dtype str_shape f = Ok t /\
    StronglySorted lab_le (LStr <$> ks) /\ NoDup ks /\ (forall k, k ∈ ks <-> is_Some (d k)) /\
    Forall2 (fun k row => exists y, d k = Some y /\ row = [letters k; letters (str_dtype (ldtype y)); letters (str_shape (lshape y))]) ks rows /\
    drawn archive_style ((letters <$> ["larry"; "dtype"; "shape"]%string) :: rows) t.
Proof. exact repr_archive. Qed.
(** The table of an empty archive has a line that is too short. *)
Theorem C78_empty_archive_refuted : forall str_dtype str_shape, exists t,
  io_repr str_dtype str_shape empty_file = Ok t /\ t = letters "larry  dtype  shape" ++ [nl] ++ letters "-------" ++ [nl] /\
  ~ drawn archive_style [letters <$> ["larry"; "dtype"; "shape"]%string] t.
Proof.
  intros. eexists. split_and!; [vm_compute; reflexivity|by vm_compute|].
  apply (not_drawn _ _ _ (letters <$> ["larry  dtype  shape"; "-------"]%string) (letters "larry  dtype  shape") (letters "-------")); [done|by bare..|by vm_compute|by repeat constructor|by repeat constructor|done].
Qed.
Example C78_archive_example : exists t,
  io_repr (fun dt => match dt with DFloat => "float64" | DInt => "int64" | _ => "?" end)%string
    (fun sh => match sh with [2; 3] => "(2, 3)" | [3] => "(3,)" | _ => "?" end)%string
    (io_run empty_file [DPut "b" exm; DPut "a long name" exm]).1 = Ok t /\
  t = concat ((fun s => letters s ++ [nl]) <$>
    ["larry        dtype    shape "; "----------------------------"; "a long name  float64  (2, 3)"; "b            float64  (2, 3)"]%string).
Proof. by eexists. Qed.

(** Wrapping: pieces of the width; breaks in the place of spaces, in lines that
    fit or have no space, and none if all lines fit; cut words. *)
Theorem C78_wrap_always : forall t width, exists ps, cut_in (Pos.to_nat width) t ps /\
  (ps = [] /\ wrap_always t width = [] \/ beside [nl] ps (wrap_always t width)).
Proof. exact always_text. Qed.
Theorem C78_wrap_onspace : forall t w,
  breaks_of t (wrap_onspace t w) /\
  (forall ls, splits nl (wrap_onspace t w) ls -> Forall (fun l => sp ∉ l \/ length l <= w) ls) /\
  (forall ls, splits nl t ls -> Forall (fun l => length l <= w) ls -> wrap_onspace t w = t).
Proof. exact (fun t w => conj (onspace_breaks t w) (conj (onspace_lines t w) (onspace_fits t w))). Qed.
Theorem C78_wrap_strict_partial : forall t width, shown (wrap_onspace_strict t width) = shown t /\
  ((forall c, c ∈ t -> white c -> c = sp \/ c = nl) ->
   forall ls, splits nl (wrap_onspace_strict t width) ls -> Forall (fun l => length l <= Pos.to_nat width) ls).
Proof. exact (fun t width => conj (strict_shown t width) (fun H ls => strict_lines t width ls H)). Qed.
(** The width is not enforced where a tab is. *)
Theorem C78_wrap_strict_refuted : exists t width ls l,
  splits nl (wrap_onspace_strict t width) ls /\ l ∈ ls /\ Pos.to_nat width < length l.
Proof.
  set (t := letters "abc" ++ ["009"%char] ++ letters "abc"). exists t, 4%positive, [t], t.
  split_and!; [apply (splits_split_at nl)|by left|vm_compute; lia].
Qed.
Example C78_wrap_example :
  wrap_always (letters "abcdefg") 3 = letters "abc" ++ [nl] ++ letters "def" ++ [nl] ++ letters "g" /\
  wrap_onspace (letters "ab cd efghijklm n o") 6 = letters "ab cd" ++ [nl] ++ letters "efghijklm" ++ [nl] ++ letters "n o" /\
  wrap_onspace_strict (letters "ab cd efghijklm n o") 6 = letters "ab cd" ++ [nl] ++ letters "efghij" ++ [nl] ++ letters "klm n" ++ [nl] ++ letters "o".
Proof. by vm_compute. Qed.

Print Assumptions C78_table_partial.
Print Assumptions C78_justification.
Print Assumptions C78_lines.
Print Assumptions C78_one_column_refuted.
Print Assumptions C78_one_row_refuted.
Print Assumptions C78_short_row_refuted.
Print Assumptions C78_archive_partial.
Print Assumptions C78_empty_archive_refuted.
Print Assumptions C78_wrap_always.
Print Assumptions C78_wrap_onspace.
Print Assumptions C78_wrap_strict_partial.
Print Assumptions C78_wrap_strict_refuted.
