(** Specification vocabulary for references, independent of the algorithms. *)
From Verif Require Import Base RefsModel.

(** Value of a column name read as a bijective base-26 numeral (A=1 … Z=26). *)
Definition bij26 (s : str) : N := fold_left (fun v c => v * 26 + (c - 64)) s 0.

(** Value of a decimal numeral. *)
Definition dec (s : str) : N := fold_left (fun v c => v * 10 + (c - 48)) s 0.

Definition all_upper (s : str) : Prop := Forall (fun c => 65 <= c <= 90) s.
Definition all_digit (s : str) : Prop := Forall (fun c => 48 <= c <= 57) s.

(** [s] is the name of column [col]: the bijective base-26 numeral of [col+1]. *)
Definition column_name (col : N) (s : str) : Prop := all_upper s /\ bij26 s = col + 1.

(** [s] is the name of row [row]: the decimal numeral of [row+1], no leading 0. *)
Definition row_name (row : N) (s : str) : Prop :=
  all_digit s /\ dec s = row + 1 /\ hd 0 s <> 48.

(** A table name the text form can carry: it has one of the characters which
    make the formatter quote it, or it is a non-empty plain name. *)
Definition plain_char (c : char) : Prop :=
  48 <= c <= 57 \/ 65 <= c <= 90 \/ 97 <= c <= 122 \/ c = 95 \/ 128 <= c.
Definition table_ok (n : str) : Prop :=
  (In 39 n \/ In 32 n \/ In 46 n) \/ (n <> [] /\ Forall plain_char n).
Definition opt_table_ok (t : option str) : Prop := forall n, t = Some n -> table_ok n.

(** The text of a cell reference, as a relation: "$" exactly before what is
    absolute, table marked absolute iff the reference is, IRI in quotes + "#". *)
Definition mark (b : bool) : str := if b then [36] else [].
Inductive quoted : str -> str -> Prop :=
| q_nil : quoted [] []
| q_quote s t : quoted s t -> quoted (39 :: s) (39 :: 39 :: t)
| q_other c s t : c <> 39 -> quoted s t -> quoted (c :: s) (c :: t).
Inductive iri_text : option str -> str -> Prop :=
| it_none : iri_text None []
| it_some i t : quoted i t -> iri_text (Some i) ([39] ++ t ++ [39; 35]).
Inductive table_text (abs : bool) : option str -> str -> Prop :=
| tt_none : table_text abs None []
| tt_plain n : ~ In 39 n -> ~ In 32 n -> ~ In 46 n ->
    table_text abs (Some n) (mark abs ++ n)
| tt_quoted n t : In 39 n \/ In 32 n \/ In 46 n -> quoted n t ->
    table_text abs (Some n) (mark abs ++ [39] ++ t ++ [39]).
Definition cell_text (ra : bool) (row : N) (ca : bool) (col : N) (s : str) : Prop :=
  exists c w, column_name col c /\ row_name row w /\ s = mark ca ++ c ++ mark ra ++ w.
Definition has_iri (i : option str) : bool := match i with Some _ => true | None => false end.
Definition cellref_text (r : cellref) (s : str) : Prop :=
  exists i t c, iri_text (cr_iri r) i /\
    table_text (has_iri (cr_iri r) || cr_row_abs r || cr_col_abs r) (cr_table r) t /\
    cell_text (cr_row_abs r) (cr_row r) (cr_col_abs r) (cr_col r) c /\
    s = i ++ t ++ [46] ++ c.
Definition range_abs (r : cellrange) : bool :=
  has_iri (rg_iri r) || rg_row_abs r || rg_col_abs r || rg_to_row_abs r || rg_to_col_abs r.
Definition cellrange_text (r : cellrange) (s : str) : Prop :=
  exists i t c t' c', iri_text (rg_iri r) i /\
    table_text (range_abs r) (rg_table r) t /\
    cell_text (rg_row_abs r) (rg_row r) (rg_col_abs r) (rg_col r) c /\
    table_text (range_abs r) (rg_to_table r) t' /\
    cell_text (rg_to_row_abs r) (rg_to_row r) (rg_to_col_abs r) (rg_to_col r) c' /\
    s = i ++ t ++ [46] ++ c ++ [58] ++ t' ++ [46] ++ c'.

(** All numbers are u32 values. *)
Definition cellref_u32 (r : cellref) : Prop := u32 (cr_row r) /\ u32 (cr_col r).
Definition cellrange_u32 (r : cellrange) : Prop :=
  u32 (rg_row r) /\ u32 (rg_col r) /\ u32 (rg_to_row r) /\ u32 (rg_to_col r).
Definition colrange_u32 (r : colrange) : Prop := u32 (cg_col r) /\ u32 (cg_to_col r).
Definition rowrange_u32 (r : rowrange) : Prop := u32 (wg_row r) /\ u32 (wg_to_row r).

(** Exactly the references the text form can carry. *)
Definition cellref_ok (r : cellref) : Prop :=
  opt_table_ok (cr_table r) /\ cr_row r < u32_max /\ cr_col r < u32_max.
Definition cellrange_ok (r : cellrange) : Prop :=
  opt_table_ok (rg_table r) /\ opt_table_ok (rg_to_table r) /\
  rg_row r < u32_max /\ rg_col r < u32_max /\ rg_to_row r < u32_max /\ rg_to_col r < u32_max.
Definition colrange_ok (r : colrange) : Prop :=
  opt_table_ok (cg_table r) /\ opt_table_ok (cg_to_table r) /\
  cg_col r < u32_max /\ cg_to_col r < u32_max.
Definition rowrange_ok (r : rowrange) : Prop :=
  opt_table_ok (wg_table r) /\ opt_table_ok (wg_to_table r) /\
  wg_row r < u32_max /\ wg_to_row r < u32_max.

(** The longest run of letters in a text has at most [k] letters. *)
Definition letter_runs_le (k : nat) (s : str) : Prop :=
  forall a b c, s = a ++ b ++ c -> Forall (fun x => 65 <= x <= 90) b -> (length b <= k)%nat.

(** The closed rectangle of a range and its cells, row by row. *)
Definition in_rect (r : cellrange) (row col : N) : Prop :=
  rg_row r <= row <= rg_to_row r /\ rg_col r <= col <= rg_to_col r.
Definition before_or_at (r1 c1 r2 c2 : N) : Prop := r1 < r2 \/ (r1 = r2 /\ c1 <= c2).

(** What a formula helper should return for reference [r]: the text of [r] in
    brackets, and that text parses to [r] (if the text form can carry it). *)
Definition helper_result (r : cellref) (f : res str) : Prop :=
  exists s, f = Ok (91 :: s ++ [93]) /\ cellref_text r s /\ (cellref_ok r -> parse_cellref s = Ok r).
Definition range_helper_result (r : cellrange) (f : res str) : Prop :=
  exists s, f = Ok (91 :: s ++ [93]) /\ cellrange_text r s /\ (cellrange_ok r -> parse_cellrange s = Ok r).

