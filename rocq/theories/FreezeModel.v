(** Frozen headers and split views of a sheet: src/sheet_.rs. *)
From Verif Require Import Base EnumModel XmlModel CellModel HeaderModel TableModel ViewModel.

Inductive view_op :=
| SplitColHeader (col : N)    (* 1357-1362 split_col_header *)
| SplitRowHeader (row : N)    (* 1366-1371 split_row_header *)
| SplitHorizontal (col : N)   (* 1375-1378 split_horizontal *)
| SplitVertical (col : N).    (* 1382-1385 split_vertical *)

(** sheet_.rs:1357-1385. A call that panics leaves the mode set already; what comes after a panic is not followed here. *)
Definition view_step (o : view_op) (s : sheetcfg) : res sheetcfg :=
  match o with
  | SplitColHeader col =>
      let* n := add32 col 1 in
      Ok (SheetCfg n (sc_cursor_y s) SplitHeading (sc_vert_mode s) n (sc_vert_pos s) (sc_active_range s)
            (sc_left s) n (sc_top s) (sc_bottom s) (sc_zoom_type s) (sc_zoom s) (sc_page_zoom s) (sc_grid s))
  | SplitRowHeader row =>
      let* n := add32 row 1 in
      Ok (SheetCfg (sc_cursor_x s) n (sc_hor_mode s) SplitHeading (sc_hor_pos s) n (sc_active_range s)
            (sc_left s) (sc_right s) (sc_top s) n (sc_zoom_type s) (sc_zoom s) (sc_page_zoom s) (sc_grid s))
  | SplitHorizontal col =>
      Ok (SheetCfg (sc_cursor_x s) (sc_cursor_y s) SplitSplit (sc_vert_mode s) col (sc_vert_pos s) (sc_active_range s)
            (sc_left s) (sc_right s) (sc_top s) (sc_bottom s) (sc_zoom_type s) (sc_zoom s) (sc_page_zoom s) (sc_grid s))
  | SplitVertical col =>
      Ok (SheetCfg (sc_cursor_x s) (sc_cursor_y s) (sc_hor_mode s) SplitSplit (sc_hor_pos s) col (sc_active_range s)
            (sc_left s) (sc_right s) (sc_top s) (sc_bottom s) (sc_zoom_type s) (sc_zoom s) (sc_page_zoom s) (sc_grid s))
  end.
Fixpoint view_run (ops : list view_op) (s : sheetcfg) : res sheetcfg :=
  match ops with
  | [] => Ok s
  | o :: r => let* s' := view_step o s in view_run r s'
  end.

(** sheet_.rs:560-577 [clone_no_data]; a sheet with its view options. *)
Definition clone_no_data (sv : sheet * sheetcfg) : sheet * sheetcfg :=
  let s := fst sv in
  (Sheet (tb_name s) (tb_style s) (tb_ranges s) (tb_print s) (tb_display s) (tb_extra s) (tb_cols s) (tb_rows s)
     (tb_gcols s) (tb_grows s) (tb_hcols s) (tb_hrows s) [], sheetcfg0).
