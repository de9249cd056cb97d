(** What a table written to a file and read again should be. *)
From Verif Require Import Base OMap XmlModel XmlSpec RefsModel RefsSpec CellModel HeaderModel HeaderSpec SplitSpec NumModel CellIoModel CellIoSpec TableModel.

(** The cell at a position, taking repeat counts into account. *)
Definition at_cell (m : cells) (p : pos) (c : cell) : Prop :=
  exists b, In ((fst p, b), c) m /\ b <= snd p < b + c_repeat c.
(** There is a cell in the row. *)
Definition row_used (m : cells) (r : N) : Prop := exists b c, In ((r, b), c) m.

(** [K] is what a cell [c] is read as, [k] times. *)
Definition read_as (lb : bool) (ds : vtype -> option str) (c : cell) (k : N) (K : content) : Prop :=
  exists v d, value_after lb (c_value c) v /\ kept lb c d /\ K = content_with d v (written_style ds c) k.
(** The cell is not stored: it says nothing that the column does not say, or only has a style and
    empty cells are to be ignored. *)
Definition not_stored (ign : bool) (dflt : option str) (K : content) : Prop :=
  says_nothing dflt K \/ (ign = true /\ says_nothing (k_style K) K).

(** A sheet as it can be written: the cells in order, with values that can be read back. *)
Definition cells_ok (m : cells) : Prop :=
  om_sorted pltb m /\ Forall (fun kv => writable (c_value (snd kv)) /\ extra_ok (snd kv)) m.
(** Rows with cells: the header of a repeated row begins with the row; the repeats are positive
    and end within the grid. *)
Definition rows_ok (m : cells) (rows : hmap rowattr) : Prop :=
  disjoint rows /\
  forall r, row_used m r ->
    (forall h, In (r, h) rows -> 1 <= h_span h /\ 1 <= ra_repeat (h_attr h) /\ r + ra_repeat (h_attr h) <= u32_max)
    /\ (forall b h, header_for rows r b h -> b < r -> ra_repeat (h_attr h) = 1).
Definition ranges_ok (o : option (list cellrange)) : Prop :=
  match o with None => True | Some l => l <> [] /\ Forall cellrange_ok l end.
Definition sheet_ok (sh : sheet) : Prop :=
  cells_ok (tb_cells sh) /\ rows_ok (tb_cells sh) (tb_rows sh) /\ ranges_ok (tb_ranges sh) /\ tb_extra sh = [].

(** No cell is partly covered by a span, none has repeat count 0. *)
Definition none_split (m : cells) : Prop :=
  forall pre r b c post, m = pre ++ ((r, b), c) :: post -> 1 <= c_repeat c /\
    exists h, forall k, b <= k < b + c_repeat c -> covered (owners [] pre) (r, k) = h.

(** The row repeat of a row. *)
Definition repeats (rows : hmap rowattr) (r n : N) : Prop :=
  (exists h, In (r, h) rows /\ ra_repeat (h_attr h) = n) \/ ((forall h, ~ In (r, h) rows) /\ n = 1).

(** Header rows and groups for which the tags are balanced: all header rows up to the last row
    with cells have cells (or are repeats of such rows); groups of columns begin and end at columns that have an element of
    their own. *)
Definition header_rows_full (sh : sheet) : Prop :=
  forall f t, tb_hrows sh = Some (f, t) -> f <= t /\
    forall k, f <= k <= t ->
      (exists r n, row_used (tb_cells sh) r /\ repeats (tb_rows sh) r n /\ r <= k < r + n)
      \/ (forall r, row_used (tb_cells sh) r -> r <= k).
Definition inside_header {A} (m : hmap A) (k : N) : Prop := exists b h, In (b, h) m /\ b < k < b + h_span h.
Definition col_groups_apart (sh : sheet) : Prop :=
  disjoint (tb_cols sh) /\ forall g, In g (tb_gcols sh) ->
    g_from g <= g_to g /\ ~ inside_header (tb_cols sh) (g_from g) /\ ~ inside_header (tb_cols sh) (g_to g).

(** Column headers with equal attributes that are neighbours in the map are neighbours in the sheet. *)
Definition equal_headers_touch (m : hmap colattr) : Prop :=
  forall x b h b' h' y, m = x ++ (b, h) :: (b', h') :: y -> h_attr h = h_attr h' -> b + h_span h = b'.
(** The columns [0 .. w-1] hold all cells, column groups and header columns. *)
Definition all_columns (sh : sheet) (w : N) : Prop :=
  (forall p c, In (p, c) (tb_cells sh) -> snd p < w) /\ (forall g, In g (tb_gcols sh) -> g_to g < w)
  /\ (forall f t, tb_hcols sh = Some (f, t) -> t < w).
