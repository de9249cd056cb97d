(** Model of src/refs.rs, src/refs/format.rs and src/refs/parser.rs. *)
From Verif Require Import Base.

(** ** Formatting *)

(** refs/format.rs:8-13 [fmt_abs]: "$" if absolute. *)
Definition fmt_abs (abs : bool) : str := if abs then lit "$" else [].

(** refs/format.rs:16-28, the digit loop of [fmt_row_name]. [room] is the number
    of free entries of the 10 byte buffer [dbuf]; writing past it is the index
    panic. Result: digits, least significant first. *)
Fixpoint row_digits (room : nat) (row : N) : res (list N) :=
  if row =? 0 then Ok [] else
  match room with
  | O => Panic
  | S room' =>
      let* ds := row_digits room' (row / 10) in
      Ok (row mod 10 :: ds)
  end.

(** refs/format.rs:16-38 [fmt_row_name]. The row is widened to u64 before +1,
    so the addition cannot overflow. *)
Definition fmt_row_name (row : N) : res str :=
  let* ds := row_digits 10 (row + 1) in
  Ok (map (fun d => 48 + d) (rev ds)).

(** refs/format.rs:54-65, the digit loop of [fmt_col_name], [room] as above. *)
Fixpoint col_digits (room : nat) (col : N) : res (list N) :=
  if col =? 0 then Ok [] else
  match room with
  | O => Panic
  | S room' =>
      let d := col mod 26 in
      if d =? 0 then
        let* ds := col_digits room' (col / 26 - 1) in Ok (25 :: ds)
      else
        let* ds := col_digits room' (col / 26) in Ok (d - 1 :: ds)
  end.

(** refs/format.rs:41-75 [fmt_col_name], with the special case for u32::MAX. *)
Definition fmt_col_name (col : N) : res str :=
  let* ds :=
    if col =? u32_max then
      let* ds := col_digits 6 (col / 26) in Ok (21 :: ds)
    else col_digits 7 (col + 1) in
  Ok (map (fun d => 65 + d) (rev ds)).

(** refs.rs:22-27, 80-85, 145-153: CRow, CCol, CellRef (flattened). *)
Record cellref := mkCellRef {
  cr_iri : option str; cr_table : option str;
  cr_row_abs : bool; cr_row : N; cr_col_abs : bool; cr_col : N }.

(** refs.rs:326-339: CellRange (flattened). *)
Record cellrange := mkCellRange {
  rg_iri : option str; rg_table : option str;
  rg_row_abs : bool; rg_row : N; rg_col_abs : bool; rg_col : N;
  rg_to_table : option str;
  rg_to_row_abs : bool; rg_to_row : N; rg_to_col_abs : bool; rg_to_col : N }.

(** refs.rs:653-664: ColRange. *)
Record colrange := mkColRange {
  cg_iri : option str; cg_table : option str; cg_col_abs : bool; cg_col : N;
  cg_to_table : option str; cg_to_col_abs : bool; cg_to_col : N }.

(** refs.rs:823-835: RowRange. *)
Record rowrange := mkRowRange {
  wg_iri : option str; wg_table : option str; wg_row_abs : bool; wg_row : N;
  wg_to_table : option str; wg_to_row_abs : bool; wg_to_row : N }.

(** refs.rs:995-999 [fmt_row], 1002-1006 [fmt_col]. *)
Definition fmt_row (abs : bool) (row : N) : res str :=
  let* n := fmt_row_name row in Ok (fmt_abs abs ++ n).
Definition fmt_col (abs : bool) (col : N) : res str :=
  let* n := fmt_col_name col in Ok (fmt_abs abs ++ n).

(** [str::replace('\'', "''")]. *)
Fixpoint double_quotes (s : str) : str :=
  match s with
  | [] => []
  | c :: s' => if c =? 39 then 39 :: 39 :: double_quotes s' else c :: double_quotes s'
  end.

(** refs.rs:1110-1119 [fmt_iri]. *)
Definition fmt_iri (iri : option str) : str :=
  match iri with
  | Some i => lit "'" ++ double_quotes i ++ lit "'" ++ lit "#"
  | None => []
  end.

(** refs.rs:1128: [table_name.contains(['\'', ' ', '.'])]. *)
Definition needs_quote (s : str) : bool :=
  existsb (fun c => (c =? 39) || (c =? 32) || (c =? 46)) s.

(** refs.rs:1122-1136 [fmt_table_name]. *)
Definition fmt_table_name (name : str) (abs : bool) : str :=
  fmt_abs abs ++
  (if needs_quote name then lit "'" ++ double_quotes name ++ lit "'" else name).

Definition fmt_opt_table (t : option str) (abs : bool) : str :=
  match t with Some n => fmt_table_name n abs | None => [] end.

Definition is_some {A} (o : option A) : bool :=
  match o with Some _ => true | None => false end.

(** refs.rs:1009-1022 [fmt_cell_ref]. *)
Definition fmt_cell_ref (r : cellref) : res str :=
  let abs := is_some (cr_iri r) || cr_col_abs r || cr_row_abs r in
  let* c := fmt_col (cr_col_abs r) (cr_col r) in
  let* w := fmt_row (cr_row_abs r) (cr_row r) in
  Ok (fmt_iri (cr_iri r) ++ fmt_opt_table (cr_table r) abs ++ lit "." ++ c ++ w).

(** refs.rs:1025-1057 [fmt_cell_range]. *)
Definition fmt_cell_range (r : cellrange) : res str :=
  let abs := is_some (rg_iri r) || rg_row_abs r || rg_col_abs r
             || rg_to_row_abs r || rg_to_col_abs r in
  let* c := fmt_col (rg_col_abs r) (rg_col r) in
  let* w := fmt_row (rg_row_abs r) (rg_row r) in
  let* c' := fmt_col (rg_to_col_abs r) (rg_to_col r) in
  let* w' := fmt_row (rg_to_row_abs r) (rg_to_row r) in
  Ok (fmt_iri (rg_iri r) ++ fmt_opt_table (rg_table r) abs ++ lit "." ++ c ++ w
      ++ lit ":" ++ fmt_opt_table (rg_to_table r) abs ++ lit "." ++ c' ++ w').

(** refs.rs:1060-1082 [fmt_col_range]. *)
Definition fmt_col_range (r : colrange) : res str :=
  let abs := is_some (cg_iri r) || cg_col_abs r || cg_to_col_abs r in
  let* c := fmt_col (cg_col_abs r) (cg_col r) in
  let* c' := fmt_col (cg_to_col_abs r) (cg_to_col r) in
  Ok (fmt_iri (cg_iri r) ++ fmt_opt_table (cg_table r) abs ++ lit "." ++ c
      ++ lit ":" ++ fmt_opt_table (cg_to_table r) abs ++ lit "." ++ c').

(** refs.rs:1085-1107 [fmt_row_range]. *)
Definition fmt_row_range (r : rowrange) : res str :=
  let abs := is_some (wg_iri r) || wg_row_abs r || wg_to_row_abs r in
  let* w := fmt_row (wg_row_abs r) (wg_row r) in
  let* w' := fmt_row (wg_to_row_abs r) (wg_to_row r) in
  Ok (fmt_iri (wg_iri r) ++ fmt_opt_table (wg_table r) abs ++ lit "." ++ w
      ++ lit ":" ++ fmt_opt_table (wg_to_table r) abs ++ lit "." ++ w').

(** refs.rs:1202-1218 [format_cellranges]: joined by one blank. *)
Fixpoint format_cellranges_tl (l : list cellrange) : res str :=
  match l with
  | [] => Ok []
  | r :: l' =>
      let* s := fmt_cell_range r in
      let* t := format_cellranges_tl l' in
      Ok (lit " " ++ s ++ t)
  end.
Definition format_cellranges (l : list cellrange) : res str :=
  match l with
  | [] => Ok []
  | r :: l' =>
      let* s := fmt_cell_range r in
      let* t := format_cellranges_tl l' in
      Ok (s ++ t)
  end.

(** refs.rs:271-278, 589-595, 785-791, 952-958 [to_formula]. *)
Definition bracket (s : str) : str := lit "[" ++ s ++ lit "]".
Definition cellref_to_formula (r : cellref) : res str :=
  let* s := fmt_cell_ref r in Ok (bracket s).
Definition cellrange_to_formula (r : cellrange) : res str :=
  let* s := fmt_cell_range r in Ok (bracket s).

(** ** Parsing. A nom parser: rest of the input and value, [Err] for a
    recoverable [nom::Err::Error] (the only kind these parsers return). *)

Definition parser (A : Type) := str -> res (A * str).

(** refs/parser.rs:462-508 [hashtag], [dollar_nom], [dot], [colon]: [tag] of one char. *)
Definition tag1 (c : char) : parser unit := fun s =>
  match s with
  | x :: s' => if x =? c then Ok (tt, s') else Err
  | [] => Err
  end.

(** nom [opt]. A panic is not caught. *)
Definition opt {A} (p : parser A) : parser (option A) := fun s =>
  match p s with
  | Ok (a, r) => Ok (Some a, r)
  | Err => Ok (None, s)
  | Panic => Panic
  end.

(** refs/parser.rs:450-453: [many0(alt((take_while1(!= '), count(', 2))))],
    greedy; consumed text and rest. *)
Fixpoint quoted_body (s : str) : str * str :=
  match s with
  | [] => ([], [])
  | c :: s' =>
      if c =? 39 then
        match s' with
        | c' :: s'' =>
            if c' =? 39 then let (a, b) := quoted_body s'' in (39 :: 39 :: a, b)
            else ([], s)
        | [] => ([], s)
        end
      else let (a, b) := quoted_body s' in (c :: a, b)
  end.

(** [str::replace("''", "'")]: leftmost, non overlapping. *)
Fixpoint undouble_quotes (s : str) : str :=
  match s with
  | [] => []
  | c :: s' =>
      match s' with
      | c' :: s'' =>
          if (c =? 39) && (c' =? 39) then 39 :: undouble_quotes s''
          else c :: undouble_quotes s'
      | [] => [c]
      end
  end.

(** [strip_prefix('\'')] / [strip_suffix('\'')]. *)
Definition strip_prefix_q (s : str) : str :=
  match s with c :: s' => if c =? 39 then s' else s | [] => s end.
Definition strip_suffix_q (s : str) : str := rev (strip_prefix_q (rev s)).

(** refs/parser.rs:222-233 [unquote_single]. *)
Definition unquote_single (s : str) : str :=
  undouble_quotes (strip_suffix_q (strip_prefix_q s)).

(** refs/parser.rs:447-459 [single_quoted_string]; the two error codes are kept
    apart because [parse_iri] looks at them. *)
Inductive sq_res := SqNoStart | SqNoEnd | SqOk (v : str) (rest : str).
Definition single_quoted_string (s : str) : sq_res :=
  match s with
  | c :: s' =>
      if c =? 39 then
        let (body, r) := quoted_body s' in
        match r with
        | c' :: r' => if c' =? 39 then SqOk (unquote_single (39 :: body ++ [39])) r'
                      else SqNoEnd
        | [] => SqNoEnd
        end
      else SqNoStart
  | [] => SqNoStart
  end.

(** refs/parser.rs:469-478 table [SHEET_NAME]: digits, letters and '_'. *)
Definition sheet_name_char (c : char) : bool :=
  if c <? 128 then is_digit c || is_alpha c || (c =? 95) else true.

(** refs/parser.rs:482-493 [unquoted_sheet_name] ([take_while1]). *)
Definition unquoted_sheet_name : parser str := fun s =>
  match span sheet_name_char s with
  | ([], _) => Err
  | (n, r) => Ok (n, r)
  end.

(** refs/parser.rs:373-388 [parse_iri]: a missing start quote or a missing '#'
    means "no iri", an unterminated string is an error. *)
Definition parse_iri : parser (option str) := fun s =>
  match single_quoted_string s with
  | SqNoStart => Ok (None, s)
  | SqNoEnd => Err
  | SqOk v r =>
      match tag1 35 r with
      | Ok (_, r') => Ok (Some v, r')
      | _ => Ok (None, s)
      end
  end.

(** refs/parser.rs:393: [single_quoted_string.or(unquoted_sheet_name)]. *)
Definition quoted_or_unquoted : parser str := fun s =>
  match single_quoted_string s with
  | SqOk v r => Ok (v, r)
  | _ => unquoted_sheet_name s
  end.

(** refs/parser.rs:390-398 [parse_sheet_name]. *)
Definition parse_sheet_name : parser (option str) := fun s =>
  let* (_, s1) := opt (tag1 36) s in
  let* (n, s2) := opt quoted_or_unquoted s1 in
  let* (_, s3) := tag1 46 s2 in
  Ok (n, s3).

(** [u32::from_str] on a string of ASCII digits: overflow is an error. *)
Fixpoint dec_value (acc : N) (s : str) : N :=
  match s with
  | [] => acc
  | c :: s' => dec_value (acc * 10 + (c - 48)) s'
  end.
Definition u32_from_digits (s : str) : res N :=
  let v := dec_value 0 s in if v <=? u32_max then Ok v else Err.

(** refs/parser.rs:291-304 [try_u32_from_rowname]. *)
Definition try_u32_from_rowname (s : str) : res N :=
  let* v := u32_from_digits s in
  if v =? 0 then Err else Ok (v - 1).

(** refs/parser.rs:336-350, loop of [try_u32_from_colname], u32 arithmetic. *)
Fixpoint colname_loop (col : N) (s : str) : res N :=
  match s with
  | [] => Ok col
  | c :: s' =>
      if is_upper c then
        let v := c - 65 in
        if v =? 25 then
          let* c1 := add32 col 1 in
          let* c2 := mul32 c1 26 in
          let* c3 := add32 c2 0 in
          colname_loop c3 s'
        else
          let* c2 := mul32 col 26 in
          let* c3 := add32 c2 (v + 1) in
          colname_loop c3 s'
      else Err
  end.

(** refs/parser.rs:333-357 [try_u32_from_colname]. *)
Definition try_u32_from_colname (s : str) : res N :=
  let* col := colname_loop 0 s in
  if col =? 0 then Err else Ok (col - 1).

(** [alpha1], [digit1]. *)
Definition take1 (p : char -> bool) : parser str := fun s =>
  match span p s with
  | ([], _) => Err
  | (n, r) => Ok (n, r)
  end.

(** refs/parser.rs:512-518 [col], 413-424 [parse_col]. *)
Definition parse_col : parser (bool * N) := fun s =>
  let* (d, s1) := opt (tag1 36) s in
  let* (n, s2) := take1 is_alpha s1 in
  let* c := try_u32_from_colname n in
  Ok ((is_some d, c), s2).

(** refs/parser.rs:522-528 [row], 400-411 [parse_row]. *)
Definition parse_row : parser (bool * N) := fun s =>
  let* (d, s1) := opt (tag1 36) s in
  let* (n, s2) := take1 is_digit s1 in
  let* r := try_u32_from_rowname n in
  Ok ((is_some d, r), s2).

(** refs/parser.rs:102-118 [parse_cell_ref] without [all_consuming]. *)
Definition parse_cell_ref_part : parser cellref := fun s =>
  let* (iri, s1) := parse_iri s in
  let* (table, s2) := parse_sheet_name s1 in
  let* ((abs_col, col), s3) := parse_col s2 in
  let* ((abs_row, row), s4) := parse_row s3 in
  Ok (mkCellRef iri table abs_row row abs_col col, s4).

(** refs/parser.rs:134-169 [parse_cell_range]. *)
Definition parse_cell_range : parser cellrange := fun s =>
  let* (iri, s1) := parse_iri s in
  let* (table, s2) := parse_sheet_name s1 in
  let* ((abs_col, col), s3) := parse_col s2 in
  let* ((abs_row, row), s4) := parse_row s3 in
  let* (_, s5) := tag1 58 s4 in
  let* (to_table, s6) := parse_sheet_name s5 in
  let* ((abs_to_col, to_col), s7) := parse_col s6 in
  let* ((abs_to_row, to_row), s8) := parse_row s7 in
  Ok (mkCellRange iri table abs_row row abs_col col to_table abs_to_row to_row abs_to_col to_col, s8).

(** refs/parser.rs:171-189 [parse_col_range]. *)
Definition parse_col_range : parser colrange := fun s =>
  let* (iri, s1) := parse_iri s in
  let* (table, s2) := parse_sheet_name s1 in
  let* ((abs_col, col), s3) := parse_col s2 in
  let* (_, s4) := tag1 58 s3 in
  let* (to_table, s5) := parse_sheet_name s4 in
  let* ((abs_to_col, to_col), s6) := parse_col s5 in
  Ok (mkColRange iri table abs_col col to_table abs_to_col to_col, s6).

(** refs/parser.rs:191-209 [parse_row_range]. *)
Definition parse_row_range : parser rowrange := fun s =>
  let* (iri, s1) := parse_iri s in
  let* (table, s2) := parse_sheet_name s1 in
  let* ((abs_row, row), s3) := parse_row s2 in
  let* (_, s4) := tag1 58 s3 in
  let* (to_table, s5) := parse_sheet_name s4 in
  let* ((abs_to_row, to_row), s6) := parse_row s5 in
  Ok (mkRowRange iri table abs_row row to_table abs_to_row to_row, s6).

(** nom [multispace1]. *)
Definition is_multispace (c : char) : bool :=
  (c =? 32) || (c =? 9) || (c =? 13) || (c =? 10).

(** nom 7 [separated_list0]: the first element may be missing; after that a
    separator not followed by an element is given back. [fuel] bounds the number
    of rounds, each consumes at least the separator. *)
Fixpoint sep_tail (fuel : nat) (s : str) : res (list cellrange * str) :=
  match fuel with
  | O => Ok ([], s)
  | S f =>
      match take1 is_multispace s with
      | Ok (_, s1) =>
          match parse_cell_range s1 with
          | Ok (r, s2) => let* (l, s3) := sep_tail f s2 in Ok (r :: l, s3)
          | Err => Ok ([], s)
          | Panic => Panic
          end
      | _ => Ok ([], s)
      end
  end.

(** refs/parser.rs:120-132 [parse_cell_range_list]. *)
Definition parse_cell_range_list : parser (option (list cellrange)) := fun s =>
  match parse_cell_range s with
  | Ok (r, s1) => let* (l, s2) := sep_tail (S (List.length s1)) s1 in Ok (Some (r :: l), s2)
  | Err => Ok (None, s)
  | Panic => Panic
  end.

(** refs.rs:1140-1189: the public functions fail on an unparsed rest … *)
Definition complete {A} (p : parser A) (s : str) : res A :=
  let* (a, r) := p s in
  match r with [] => Ok a | _ => Err end.
Definition parse_cellref : str -> res cellref := complete parse_cell_ref_part.
Definition parse_cellrange : str -> res cellrange := complete parse_cell_range.
Definition parse_colrange : str -> res colrange := complete parse_col_range.
Definition parse_rowrange : str -> res rowrange := complete parse_row_range.
(** … except refs.rs:1192-1200 [parse_cellranges], which drops the rest. *)
Definition parse_cellranges (s : str) : res (option (list cellrange)) :=
  let* (v, _) := parse_cell_range_list s in Ok v.

(** ** Geometry *)

(** refs.rs:452-476 [origin_span], asserts and u32 arithmetic
    ([row + span.0 - 1] is evaluated left to right). *)
Definition origin_span (row col : N) (sp : N * N) : res cellrange :=
  if (0 <? fst sp) && (0 <? snd sp) then
    let* r1 := add32 row (fst sp) in
    let* r := sub32 r1 1 in
    let* c1 := add32 col (snd sp) in
    let* c := sub32 c1 1 in
    Ok (mkCellRange None None false row false col None false r false c)
  else Panic.

(** refs.rs:390-414 [local], 421-445 [remote]. *)
Definition range_local (row col to_row to_col : N) : res cellrange :=
  if (row <=? to_row) && (col <=? to_col) then
    Ok (mkCellRange None None false row false col None false to_row false to_col)
  else Panic.
Definition range_remote (table : str) (row col to_row to_col : N) : res cellrange :=
  if (row <=? to_row) && (col <=? to_col) then
    Ok (mkCellRange None (Some table) false row false col None false to_row false to_col)
  else Panic.

(** refs.rs:624-629 [contains]. *)
Definition range_contains (r : cellrange) (row col : N) : bool :=
  (rg_row r <=? row) && (row <=? rg_to_row r) && (rg_col r <=? col) && (col <=? rg_to_col r).

(** refs.rs:632-634 [out_looped]. *)
Definition out_looped (r : cellrange) (row col : N) : bool :=
  (rg_to_row r <? row) || (row =? rg_to_row r) && (rg_to_col r <? col).

(** refs.rs:802-804 ColRange::contains, 969-971 RowRange::contains. *)
Definition colrange_contains (r : colrange) (col : N) : bool :=
  (cg_col r <=? col) && (col <=? cg_to_col r).
Definition rowrange_contains (r : rowrange) (row : N) : bool :=
  (wg_row r <=? row) && (row <=? wg_to_row r).

(** refs.rs:697-713 ColRange::new, 864-880 RowRange::new. *)
Definition colrange_new (a b : N) : res colrange :=
  if a <=? b then Ok (mkColRange None None false a None false b) else Panic.
Definition rowrange_new (a b : N) : res rowrange :=
  if a <=? b then Ok (mkRowRange None None false a None false b) else Panic.

(** refs.rs:179-192 CellRef::local, 195-208 CellRef::remote. *)
Definition ref_local (row col : N) : cellref := mkCellRef None None false row false col.
Definition ref_remote (t : str) (row col : N) : cellref :=
  mkCellRef None (Some t) false row false col.

(** refs.rs:281-299 [absolute], [absolute_row], [absolute_col] of CellRef. *)
Definition ref_set_abs (ra ca : bool) (r : cellref) : cellref :=
  mkCellRef (cr_iri r) (cr_table r) (ra || cr_row_abs r) (cr_row r) (ca || cr_col_abs r) (cr_col r).
Definition ref_absolute := ref_set_abs true true.
Definition ref_absolute_row := ref_set_abs true false.
Definition ref_absolute_col := ref_set_abs false true.

(** refs.rs:598-620 [absolute], [absolute_rows], [absolute_cols] of CellRange. *)
Definition range_set_abs (ra ca : bool) (r : cellrange) : cellrange :=
  mkCellRange (rg_iri r) (rg_table r) (ra || rg_row_abs r) (rg_row r) (ca || rg_col_abs r) (rg_col r)
    (rg_to_table r) (ra || rg_to_row_abs r) (rg_to_row r) (ca || rg_to_col_abs r) (rg_to_col r).
Definition range_absolute := range_set_abs true true.
Definition range_absolute_rows := range_set_abs true false.
Definition range_absolute_cols := range_set_abs false true.
