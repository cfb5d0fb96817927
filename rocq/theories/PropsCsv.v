(** Properties C71 to C73: csv files and tofile (la/deflarry.py). *)
From Verif Require Import Csv ConvertFacts CsvFacts.
From Verif Require Import PropsLarry PropsAlign PropsOps PropsNumeric.
From Coq Require Import DecimalString.

(** Example conversions: decimal texts of whole numbers. *)
Definition dec (z : Z) : string := NilZero.string_of_int (Z.to_int z).
Definition ex_str (a : lab) : string := match a with LStr s => s | LInt z => dec z | _ => "?" end.
Definition ex_repr (v : val) : string :=
  match v with
  | VFloat (Fin q) => dec (QArith_base.Qnum (Qcanon.this q)) ++ ".0"
  | VFloat NaN => "nan" | VInt z => dec z | VBool true => "True" | VBool false => "False"
  | _ => "?"
  end.
Definition ex_float (s : string) : option num :=
  if decide (s = "nan") then Some NaN
  else
    let n := String.length s in
    let s := if decide (String.substring (n - 2) 2 s = ".0") then String.substring 0 (n - 2) s else s in
    i ← NilZero.int_of_string s; Some (Fin (Qc_of_Z (Z.of_int i))).
(** A text with two quotes, a comma, a line feed and a carriage return. *)
Definition odd : string := word (letters "a,b" ++ [quote; nl; cr] ++ letters "c" ++ [quote]).
Definition excsv : larry := Larry (Nda DFloat (Arr [2; 2] [vf 1; VFloat NaN; vf 3; vf 4])) [[LStr odd; LStr ""]; [LInt 7; LStr "x"]].

(** C71: tocsv followed by fromcsv. *)
(** The file: one line per element, quoted where needed. *)
Theorem C71_file : forall str repr y delimiter d,
  letters delimiter = [d] -> valid y ->
  (forall l a, l ∈ llabel y -> a ∈ l -> nul ∉ letters (str a)) -> (forall v, v ∈ data (larr y) -> nul ∉ letters (repr v)) ->
  exists t rows, larry_tocsv str repr y delimiter = Ok t /\ file_of d t rows /\ length rows = lsize y /\
    forall r, r ∈ rows <-> exists ls v, cell y ls = Some v /\ r = ((fun a => letters (str a)) <$> ls) ++ [letters (repr v)].
Proof. exact tocsv_file. Qed.
(** Labels of one axis with different texts; Python reads numbers as it writes
    them; Python 3 also changes carriage returns in labels. *)
Theorem C71_csv : forall (py3 : bool) str repr float y delimiter d,
  letters delimiter = [d] -> separator d -> valid y -> lsize y <> 0 ->
  (forall l a, l ∈ llabel y -> a ∈ l -> nul ∉ letters (str a)) ->
  (forall v, v ∈ data (larr y) -> nul ∉ letters (repr v) /\ exists n, float (repr v) = Some n /\ val_to_float v = VFloat n) ->
  (py3 = true -> (forall l a, l ∈ llabel y -> a ∈ l -> cr ∉ letters (str a)) /\ (forall v, v ∈ data (larr y) -> cr ∉ letters (repr v))) ->
  (forall l, l ∈ llabel y -> NoDup (str <$> l)) ->
  exists z, (t ← larry_tocsv str repr y delimiter; larry_fromcsv py3 float t delimiter 0) = Ok z /\ text_copy str y z.
Proof. exact csv_text_copy. Qed.
(** A float larry with sorted texts as labels comes back unchanged. *)
Theorem C71_equal : forall str y z,
  valid y -> ldtype y = DFloat -> (forall s, str (LStr s) = s) ->
  (forall l a, l ∈ llabel y -> a ∈ l -> exists s, a = LStr s) ->
  (forall l, l ∈ llabel y -> StronglySorted lab_lt l) -> text_copy str y z -> z = y.
Proof. exact text_copy_eq. Qed.
Theorem C71_empty : forall py3 str repr float y delimiter d,
  letters delimiter = [d] -> valid y -> lsize y = 0 ->
  (t ← larry_tocsv str repr y delimiter; larry_fromcsv py3 float t delimiter 0) = Ok empty_larry.
Proof. exact csv_empty. Qed.
Theorem C71_delimiter : forall py3 str repr float y t delimiter skiprows,
  length (letters delimiter) <> 1 -> larry_tocsv str repr y delimiter = Err TypeError /\ larry_fromcsv py3 float t delimiter skiprows = Err TypeError.
Proof. exact csv_delimiter. Qed.
(** Labels 1 and '1' have the same text: an element is lost. *)
Theorem C71_label_refuted : exists y z ls v,
  valid y /\ ldtype y = DFloat /\ cell y ls = Some v /\
  (t ← larry_tocsv ex_str ex_repr y ","; larry_fromcsv false ex_float t "," 0) = Ok z /\
  cell z ((fun a => LStr (ex_str a)) <$> ls) <> Some (val_to_float v).
Proof.
  exists (Larry (Nda DFloat (Arr [2] [vf 1; vf 2])) [[LInt 1; LStr "1"]]). eexists. exists [LInt 1], (vf 1).
  split_and!; [solve_valid|done|done|by vm_compute|]. vm_compute. done.
Qed.
(** Bools are written but not read. *)
Theorem C71_bool_refuted : exists y,
  valid y /\ ldtype y = DBool /\ (t ← larry_tocsv ex_str ex_repr y ","; larry_fromcsv false ex_float t "," 0) = Err ValueError.
Proof. exists exb. split_and!; [solve_valid|done|by vm_compute]. Qed.
(** Python 3: a carriage return in a label becomes a line feed. *)
Theorem C71_python3_refuted : exists y z ls v,
  valid y /\ ldtype y = DFloat /\ cell y ls = Some v /\
  (t ← larry_tocsv ex_str ex_repr y ","; larry_fromcsv true ex_float t "," 0) = Ok z /\
  cell z ((fun a => LStr (ex_str a)) <$> ls) <> Some (val_to_float v).
Proof.
  exists excsv. eexists. exists [LStr odd; LInt 7], (vf 1).
  split_and!; [solve_valid|done|done|by vm_compute|]. vm_compute. done.
Qed.
Example C71_example :
  (t ← larry_tocsv ex_str ex_repr excsv ","; larry_fromcsv false ex_float t "," 0) =
    Ok (Larry (Nda DFloat (Arr [2; 2] [vf 3; vf 4; vf 1; VFloat NaN])) [[LStr ""; LStr odd]; [LStr "7"; LStr "x"]]) /\
  larry_tocsv ex_str ex_repr ex1 ";" = Ok (letters "b;10.0" ++ [cr; nl] ++ letters "a;20.0" ++ [cr; nl] ++ letters "c;30.0" ++ [cr; nl]) /\
  (t ← larry_tocsv ex_str ex_repr ex1 ";"; larry_fromcsv true ex_float t ";" 0) =
    Ok (Larry (Nda DFloat (Arr [3] [vf 20; vf 10; vf 30])) [[LStr "a"; LStr "b"; LStr "c"]]).
Proof. by_compute. Qed.

(** C72: fromcsv. *)
Theorem C72_fromcsv : forall (py3 : bool) float t delimiter d rows skiprows given k,
  letters delimiter = [d] -> separator d -> file_of d t rows ->
  (py3 = true -> skiprows = 0 /\ forall r f, r ∈ rows -> f ∈ r -> cr ∉ f) ->
  skiprows < length rows -> k <> 0 -> Forall (fun r => length r = S k) (drop skiprows rows) ->
  Forall2 (row_gives float) (drop skiprows rows) given ->
  exists z, larry_fromcsv py3 float t delimiter skiprows = Ok z /\ length (llabel z) = k /\ tabulates given z.
Proof. exact fromcsv_ok. Qed.
Theorem C72_number : forall (py3 : bool) float t delimiter d rows skiprows k fs f,
  letters delimiter = [d] -> separator d -> file_of d t rows ->
  (py3 = true -> skiprows = 0 /\ forall r f, r ∈ rows -> f ∈ r -> cr ∉ f) ->
  k <> 0 -> Forall (fun r => length r = S k) (drop skiprows rows) ->
  fs ++ [f] ∈ drop skiprows rows -> float (word f) = None ->
  larry_fromcsv py3 float t delimiter skiprows = Err ValueError.
Proof. exact fromcsv_number. Qed.
(** Skipping all rows, skipping too many, and empty lines. *)
Theorem C72_empty : forall float t delimiter d rows,
  letters delimiter = [d] -> separator d -> file_of d t rows ->
  larry_fromcsv false float t delimiter (length rows) = Ok empty_larry.
Proof. exact fromcsv_empty. Qed.
Theorem C72_stop : forall float t delimiter d rows skiprows,
  letters delimiter = [d] -> separator d -> file_of d t rows -> length rows < skiprows ->
  larry_fromcsv false float t delimiter skiprows = Err StopIteration.
Proof. exact fromcsv_stop. Qed.
Theorem C72_blank : forall (py3 : bool) float t delimiter d rows skiprows,
  letters delimiter = [d] -> separator d -> file_of d t rows ->
  (py3 = true -> skiprows = 0 /\ forall r f, r ∈ rows -> f ∈ r -> cr ∉ f) ->
  [] ∈ drop skiprows rows -> larry_fromcsv py3 float t delimiter skiprows = Err IndexError.
Proof. exact fromcsv_blank. Qed.
(** With Python 3 rows cannot be skipped. *)
Theorem C72_python3_refuted : forall float t delimiter d skiprows,
  letters delimiter = [d] -> skiprows <> 0 -> larry_fromcsv true float t delimiter skiprows = Err AttributeError.
Proof. exact fromcsv_py3. Qed.
(** A value is missing: the file is read without an error, with the labels of
    the last axis as values. *)
Theorem C72_missing_refuted : exists t rows z,
  file_of ","%char t rows /\ rows = [letters <$> ["a"; "7"; "1.0"]; letters <$> ["b"; "8"]] /\
  larry_fromcsv false ex_float t "," 0 = Ok z /\ cell z [LStr "a"] = Some (vf 7) /\ cell z [LStr "b"] = Some (vf 8).
Proof.
  exists (letters "a,7,1.0" ++ [nl] ++ letters "b,8"), [letters <$> ["a"; "7"; "1.0"]; letters <$> ["b"; "8"]]. eexists.
  assert (Hb : forall s, forallb (fun c => negb (special ","%char c || bool_decide (c = nul))) s = true -> field_of ","%char s s).
  { intros s H. rewrite forallb_forall in H. constructor; intros Hc%elem_of_list_In%H; by vm_compute in Hc. }
  split_and!; [|done|by vm_compute|by vm_compute|by vm_compute].
  apply file_line; [right; split; [done|]|by left|apply file_last; [done|right; split; [done|]]].
  - apply (fields_cons _ (letters "a") _ (letters "7,1.0")); [by apply Hb|].
    apply (fields_cons _ (letters "7") _ (letters "1.0")); [by apply Hb|]. constructor. by apply Hb.
  - apply (fields_cons _ (letters "b") _ (letters "8")); [by apply Hb|]. constructor. by apply Hb.
Qed.
Example C72_example :
  larry_fromcsv false ex_float (letters "head" ++ [nl] ++ letters "b,2,1.0" ++ [cr; nl] ++ letters "a,1,5" ++ [nl] ++ letters "b,2,3") "," 1 =
    Ok (Larry (Nda DFloat (Arr [2; 2] [vf 5; VFloat NaN; VFloat NaN; vf 3])) [[LStr "a"; LStr "b"]; [LStr "1"; LStr "2"]]) /\
  larry_fromcsv false ex_float (letters ",1.0" ++ [nl]) "," 0 = Ok (Larry (Nda DFloat (Arr [1] [vf 1])) [[LStr ""]]) /\
  larry_fromcsv false ex_float (letters "a,1.0" ++ [nl; nl]) "," 0 = Err IndexError /\
  larry_fromcsv false ex_float (letters "a,x") "," 0 = Err ValueError /\
  larry_fromcsv false ex_float (letters "a,1") "," 2 = Err StopIteration.
Proof. by_compute. Qed.

(** C73: tofile. *)
Theorem C73_tofile : forall str repr y delimiter d,
  letters delimiter = [d] -> d <> nl -> valid y ->
  (exists l, llabel y = [l]) \/ (exists l0 l1, llabel y = [l0; l1] /\ l1 <> []) ->
  (forall l a, l ∈ llabel y -> a ∈ l -> d ∉ letters (str a) /\ nl ∉ letters (str a)) ->
  (forall v, v ∈ data (larr y) -> d ∉ letters (repr v) /\ nl ∉ letters (repr v)) ->
  exists t lines table, larry_tofile str repr y delimiter = Ok t /\
    splits nl t (lines ++ [[]]) /\ Forall2 (splits d) lines table /\ table_of str repr y table.
Proof. exact tofile_ok. Qed.
Theorem C73_error : forall str repr y delimiter,
  length (llabel y) <> 1 -> length (llabel y) <> 2 -> larry_tofile str repr y delimiter = Err ValueError.
Proof. exact tofile_bad. Qed.
(** Without columns the first line reads as one column with an empty label. *)
Theorem C73_no_columns : forall str repr y delimiter d l0,
  letters delimiter = [d] -> llabel y = [l0; []] ->
  larry_tofile str repr y delimiter = Ok (concat ((fun s => s ++ [nl]) <$> [d] :: ((fun a => letters (str a)) <$> l0))).
Proof. exact tofile_no_columns. Qed.
Theorem C73_no_columns_refuted : forall str repr y delimiter d l0 t lines table,
  letters delimiter = [d] -> d <> nl -> llabel y = [l0; []] -> larry_tofile str repr y delimiter = Ok t ->
  splits nl t (lines ++ [[]]) -> Forall2 (splits d) lines table -> ~ table_of str repr y table.
Proof. exact tofile_no_columns_refuted. Qed.
(** Labels are not quoted: two different larrys give the same file. *)
Theorem C73_quoting_refuted : exists y1 y2 t,
  valid y1 /\ valid y2 /\ lshape y1 <> lshape y2 /\
  larry_tofile ex_str ex_repr y1 "," = Ok t /\ larry_tofile ex_str ex_repr y2 "," = Ok t.
Proof.
  exists (Larry (Nda DInt (Arr [1; 2] [VInt 1; VInt 2])) [[LStr "r"]; [LStr "c"; LStr "d"]]),
    (Larry (Nda DInt (Arr [1; 1] [VInt 2])) [[LStr "r,1"]; [LStr "c,d"]]).
  eexists. split_and!; [solve_valid|solve_valid|done|by vm_compute|by vm_compute].
Qed.
Example C73_example :
  larry_tofile ex_str ex_repr ex2 "," = Ok (letters ",7,9,5" ++ [nl] ++ letters "x,1,2,3" ++ [nl] ++ letters "y,4,5,6" ++ [nl]) /\
  larry_tofile ex_str ex_repr ex1 ", " = Ok (letters "b, 10.0" ++ [nl] ++ letters "a, 20.0" ++ [nl] ++ letters "c, 30.0" ++ [nl]) /\
  larry_tofile ex_str ex_repr (Larry (Nda DInt (Arr [1; 1; 1] [VInt 1])) [[LInt 0]; [LInt 0]; [LInt 0]]) "," = Err ValueError /\
  larry_tofile ex_str ex_repr (Larry (Nda DInt (Arr [2; 0] [])) [[LStr "x"; LStr "y"]; []]) "," = Ok (letters "," ++ [nl] ++ letters "x" ++ [nl] ++ letters "y" ++ [nl]).
Proof. by_compute. Qed.

Print Assumptions C71_file.
Print Assumptions C71_csv.
Print Assumptions C71_equal.
Print Assumptions C71_empty.
Print Assumptions C71_delimiter.
Print Assumptions C71_label_refuted.
Print Assumptions C71_bool_refuted.
Print Assumptions C71_python3_refuted.
Print Assumptions C72_fromcsv.
Print Assumptions C72_number.
Print Assumptions C72_empty.
Print Assumptions C72_stop.
Print Assumptions C72_blank.
Print Assumptions C72_python3_refuted.
Print Assumptions C72_missing_refuted.
Print Assumptions C73_tofile.
Print Assumptions C73_error.
Print Assumptions C73_no_columns.
Print Assumptions C73_no_columns_refuted.
Print Assumptions C73_quoting_refuted.
