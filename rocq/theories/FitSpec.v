(** Which sheets can be written. *)
From Verif Require Import Base OMap RefsModel RefsSpec CellModel HeaderModel HeaderSpec TableModel TableSpec.

(** The cell, its repeats and what it spans lie within the grid. *)
Definition cell_inside (kv : pos * cell) : Prop :=
  let '((r, c), d) := kv in
  r + 1 <= u32_max /\ 1 <= c_repeat d /\ c + c_repeat d <= u32_max /\
  forall x, c_extra d = Some x ->
    1 <= rspan (x_span x) /\ 1 <= cspan_ (x_span x) /\ r + rspan (x_span x) <= u32_max /\ c + cspan_ (x_span x) <= u32_max.

(** Groups of rows begin before they end; a group of one row is not a row without cells before
    the last row with cells. *)
Definition row_groups_writable (sh : sheet) : Prop :=
  forall g, In g (tb_grows sh) -> g_from g <= g_to g /\
    (g_from g = g_to g ->
       (exists r n, row_used (tb_cells sh) r /\ repeats (tb_rows sh) r n /\ r <= g_from g < r + n)
       \/ (forall r, row_used (tb_cells sh) r -> r <= g_from g)).

(** Everything is within the 32 bits of rows and columns. *)
Definition inside_grid (sh : sheet) : Prop :=
  om_sorted pltb (tb_cells sh) /\ Forall cell_inside (tb_cells sh)
  /\ disjoint (tb_rows sh) /\ (forall r n, row_used (tb_cells sh) r -> repeats (tb_rows sh) r n -> 1 <= n /\ r + n <= u32_max)
  /\ disjoint (tb_cols sh) /\ wide (tb_cols sh)
  /\ Forall (fun g => g_to g < u32_max) (tb_gcols sh) /\ (forall f t, tb_hcols sh = Some (f, t) -> t < u32_max)
  /\ (forall l, tb_ranges sh = Some l -> Forall cellrange_u32 l).

(** No cell lies in the repeats of another one, no row with cells in the repeats of another such row. *)
Definition nothing_overlaps (sh : sheet) : Prop :=
  (forall r b c b' c', In ((r, b), c) (tb_cells sh) -> In ((r, b'), c') (tb_cells sh) -> b < b' -> b + c_repeat c <= b')
  /\ (forall r n r', row_used (tb_cells sh) r -> repeats (tb_rows sh) r n -> row_used (tb_cells sh) r' -> r < r' -> r + n <= r').
