(** What groups and header ranges of a sheet should be after writing and reading. *)
From Coq Require Import Permutation.
From Verif Require Import Base OMap RefsModel CellModel HeaderModel HeaderSpec TableModel TableSpec.

(** ** Rows *)

(** The rows [r .. r+n-1] are written as one element with cells. *)
Definition data_rows (sh : sheet) (r n : N) : Prop := row_used (tb_cells sh) r /\ repeats (tb_rows sh) r n.
(** The first row behind the written ones. *)
Definition rows_end (sh : sheet) (E : N) : Prop :=
  ((forall r, ~ row_used (tb_cells sh) r) /\ E = 0)
  \/ exists r n, data_rows sh r n /\ (forall r', row_used (tb_cells sh) r' -> r' <= r) /\ E = r + n.
Definition in_data (sh : sheet) (k : N) : Prop := exists r n, data_rows sh r n /\ r <= k < r + n.
(** The row [k] is the first of its element: the start of a range that begins in row [k]. *)
Definition starts_at (sh : sheet) (k f : N) : Prop :=
  (exists r n, data_rows sh r n /\ r <= k < r + n /\ f = r) \/ (~ in_data sh k /\ f = k).
(** The end of a group that ends in row [k]: the last repeat of the row; one row too early for an
    empty row; the last written row if [k] is not written. *)
Definition ends_at (sh : sheet) (E k t : N) : Prop :=
  (exists r n, data_rows sh r n /\ r <= k < r + n /\ t = r + n - 1)
  \/ (~ in_data sh k /\ k < E /\ t = k - 1)
  \/ (E <= k /\ t = E - 1).

(** No group is a single row without cells in front of the last row with cells. *)
Definition no_empty_group (sh : sheet) : Prop :=
  forall g, In g (tb_grows sh) -> g_from g = g_to g ->
    in_data sh (g_from g) \/ (forall r, row_used (tb_cells sh) r -> r <= g_from g).
(** No group that began earlier ends within a repeated row before another one begins within the same row. *)
Definition no_change_within (sh : sheet) : Prop :=
  forall a b r n, In a (tb_grows sh) -> In b (tb_grows sh) -> data_rows sh r n ->
    ~ (g_from a < r /\ r <= g_to a < g_from b /\ g_from b < r + n).
(** Of two groups that begin with the same row the outer one is listed first. *)
Definition begin_together (sh : sheet) (a b : grouped) : Prop :=
  g_from a = g_from b \/ exists r n, data_rows sh r n /\ r <= g_from a < r + n /\ r <= g_from b < r + n.
Definition outer_first_rows (sh : sheet) : Prop :=
  forall x a y b z, tb_grows sh = x ++ a :: y ++ b :: z -> begin_together sh a b -> g_to b <= g_to a.

(** Where groups go: for each group its first and last row in the file. *)
Definition span_of (g : grouped) : N * N := (g_from g, g_to g).
Definition flag_of (g : grouped) : N * bool := (g_from g, g_display g).
Definition moved : Type := N * N * grouped.
Definition as_group (d : moved) : grouped := let '(f, t, g) := d in mkGrp f t (g_display g).

(** A header range [o] becomes [o']: nothing if it begins behind the last row. *)
Definition header_rows_after (sh : sheet) (E : N) (o' : option range) : Prop :=
  match tb_hrows sh with
  | None => o' = None
  | Some (f, t) => (E <= f /\ o' = None) \/ (f < E /\ exists f' t', starts_at sh f f' /\ ends_at sh E t t' /\ o' = Some (f', t'))
  end.

(** Groups and headers that need no change: they begin with the first row of an element with
    cells and end with the last. *)
Definition row_aligned (sh : sheet) (f t : N) : Prop :=
  (exists n, data_rows sh f n) /\ (exists r n, data_rows sh r n /\ t = r + n - 1 /\ 1 <= n).

(** ** Columns *)

Definition col_end (sh : sheet) (k t : N) : Prop :=
  (exists h, In (k, h) (tb_cols sh) /\ t = k + h_span h - 1) \/ ((forall h, ~ In (k, h) (tb_cols sh)) /\ t = k).
Definition outer_first_cols (sh : sheet) : Prop :=
  forall x a y b z, tb_gcols sh = x ++ a :: y ++ b :: z -> g_from a = g_from b -> g_to b <= g_to a.
(** From the first column of the range that has an element of its own to the end of the last one. *)
Definition header_cols_after (sh : sheet) (o' : option range) : Prop :=
  match tb_hcols sh with
  | None => o' = None
  | Some (f, t) =>
      ((forall k, f <= k <= t -> inside_header (tb_cols sh) k) /\ o' = None)
      \/ exists a z z', f <= a <= z /\ z <= t
         /\ ~ inside_header (tb_cols sh) a /\ (forall k, f <= k < a -> inside_header (tb_cols sh) k)
         /\ ~ inside_header (tb_cols sh) z /\ (forall k, z < k <= t -> inside_header (tb_cols sh) k)
         /\ col_end sh z z' /\ o' = Some (a, z')
  end.

(** ** What becomes of a list of groups *)

(** Each of the groups [gs] is read as one group with first and last line as [Dn] says, and each
    first line has the display flags of the groups that begin there. Which flag goes with which
    last line is not said. *)
Definition regrouped (gs gs' : list grouped) (Dn : moved -> Prop) : Prop :=
  exists D, Permutation (map snd D) gs /\ Forall Dn D
    /\ Permutation (map span_of gs') (map fst D) /\ Permutation (map flag_of gs') (map (fun d => (fst (fst d), g_display (snd d))) D).
(** Each of the groups is read as one group with these lines and its own flag. *)
Definition regrouped_exactly (gs gs' : list grouped) (Dn : moved -> Prop) : Prop :=
  exists D, Permutation (map snd D) gs /\ Forall Dn D /\ Permutation gs' (map as_group D).

Definition row_moved (sh : sheet) (E : N) (d : moved) : Prop :=
  starts_at sh (g_from (snd d)) (fst (fst d)) /\ ends_at sh E (g_to (snd d)) (snd (fst d)).
Definition col_moved (sh : sheet) (d : moved) : Prop :=
  fst (fst d) = g_from (snd d) /\ col_end sh (g_to (snd d)) (snd (fst d)).
