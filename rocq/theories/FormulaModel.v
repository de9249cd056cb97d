(** Model of src/formula.rs: the [cell!] macro and the f*ref helper functions. *)
From Verif Require Import Base RefsModel.

(** formula.rs:52-63 (no table) and 147-158 (with table): the eight arms of
    [cell!] for a single cell, one match case per arm. [ra]/[ca]: [abs] written
    in front of row/column. *)
Definition cell_macro (table : option str) (ra : bool) (row : N) (ca : bool) (col : N) : cellref :=
  match table with
  | None =>
      match ra, ca with
      | true, true => mkCellRef None None true row true col
      | true, false => mkCellRef None None true row false col
      | false, true => mkCellRef None None false row true col
      | false, false => mkCellRef None None false row false col
      end
  | Some t =>
      match ra, ca with
      | true, true => mkCellRef None (Some t) true row true col
      | true, false => mkCellRef None (Some t) true row true col
      | false, true => mkCellRef None (Some t) true row true col
      | false, false => mkCellRef None (Some t) true row true col
      end
  end.

(** formula.rs:65-145 (no table) and 160-399 (with table): the 32 arms for a
    range. Both groups have the same flags, in this order of arms. *)
Definition cell_macro_range (table : option str)
    (ra : bool) (row : N) (ca : bool) (col : N) (ra2 : bool) (row2 : N) (ca2 : bool) (col2 : N) : cellrange :=
  match ra, ca, ra2, ca2 with
  | true, true, true, true => mkCellRange None table true row true col None true row2 true col2
  | true, true, true, false => mkCellRange None table true row true col None true row2 false col2
  | true, true, false, true => mkCellRange None table true row true col None false row2 true col2
  | true, true, false, false => mkCellRange None table true row true col None false row2 false col2
  | true, false, true, true => mkCellRange None table true row false col None true row2 true col2
  | true, false, true, false => mkCellRange None table true row false col None true row2 false col2
  | true, false, false, true => mkCellRange None table true row false col None false row2 true col2
  | true, false, false, false => mkCellRange None table true row false col None false row2 false col2
  | false, true, true, true => mkCellRange None table false row true col None true row2 true col2
  | false, true, true, false => mkCellRange None table false row true col None true row2 false col2
  | false, true, false, true => mkCellRange None table false row true col None false row2 true col2
  | false, true, false, false => mkCellRange None table false row true col None false row2 false col2
  | false, false, true, true => mkCellRange None table false row false col None true row2 true col2
  | false, false, true, false => mkCellRange None table false row false col None true row2 false col2
  | false, false, false, true => mkCellRange None table false row false col None false row2 true col2
  | false, false, false, false => mkCellRange None table false row false col None false row2 false col2
  end.

(** formula.rs:403-423 [fcellref], [fcellrefr], [fcellrefc], [fcellrefa]. *)
Definition fcellref (row col : N) := cellref_to_formula (ref_local row col).
Definition fcellrefr (row col : N) := cellref_to_formula (ref_absolute_row (ref_local row col)).
Definition fcellrefc (row col : N) := cellref_to_formula (ref_absolute_col (ref_local row col)).
Definition fcellrefa (row col : N) := cellref_to_formula (ref_absolute (ref_local row col)).

(** formula.rs:426-446 the same with a table. *)
Definition fcellref_table (t : str) (row col : N) := cellref_to_formula (ref_remote t row col).
Definition fcellrefr_table (t : str) (row col : N) := cellref_to_formula (ref_absolute_row (ref_remote t row col)).
Definition fcellrefc_table (t : str) (row col : N) := cellref_to_formula (ref_absolute_col (ref_remote t row col)).
Definition fcellrefa_table (t : str) (row col : N) := cellref_to_formula (ref_absolute (ref_remote t row col)).

(** formula.rs:449-473 [frangeref], [frangerefr], [frangerefc], [frangerefa];
    [CellRange::local] asserts the order of the corners. *)
Definition frangeref (row col row_to col_to : N) : res str :=
  let* r := range_local row col row_to col_to in cellrange_to_formula r.
Definition frangerefr (row col row_to col_to : N) : res str :=
  let* r := range_local row col row_to col_to in cellrange_to_formula (range_absolute_rows r).
Definition frangerefc (row col row_to col_to : N) : res str :=
  let* r := range_local row col row_to col_to in cellrange_to_formula (range_absolute_cols r).
Definition frangerefa (row col row_to col_to : N) : res str :=
  let* r := range_local row col row_to col_to in cellrange_to_formula (range_absolute r).

(** formula.rs:476-522 the same with a table. *)
Definition frangeref_table (t : str) (row col row_to col_to : N) : res str :=
  let* r := range_remote t row col row_to col_to in cellrange_to_formula r.
Definition frangerefr_table (t : str) (row col row_to col_to : N) : res str :=
  let* r := range_remote t row col row_to col_to in cellrange_to_formula (range_absolute_rows r).
Definition frangerefc_table (t : str) (row col row_to col_to : N) : res str :=
  let* r := range_remote t row col row_to col_to in cellrange_to_formula (range_absolute_cols r).
Definition frangerefa_table (t : str) (row col row_to col_to : N) : res str :=
  let* r := range_remote t row col row_to col_to in cellrange_to_formula (range_absolute r).
