(** Writing and reading one table: io/write.rs [write_sheet], [write_table_columns] and the row
    functions, io/read.rs [read_table] and the attribute readers. *)
From Verif Require Import Base OMap XmlModel RefsModel CellModel HeaderModel SplitModel NumModel EnumModel CellIoModel.

(** sheet_.rs:106-128 [Sheet], without the configuration (it is not in the table element). *)
Record sheet := Sheet {
  tb_name : str; tb_style : option str; tb_ranges : option (list cellrange); tb_print : bool; tb_display : bool;
  tb_extra : list xnode; tb_cols : hmap colattr; tb_rows : hmap rowattr;
  tb_gcols : list grouped; tb_grows : list grouped; tb_hcols : option range; tb_hrows : option range;
  tb_cells : cells }.

Definition t_table : str := lit "table:table".
Definition t_cgroup : str := lit "table:table-column-group".
Definition t_hcols : str := lit "table:table-header-columns".
Definition t_column : str := lit "table:table-column".
Definition t_rgroup : str := lit "table:table-row-group".
Definition t_hrows : str := lit "table:table-header-rows".
Definition t_row : str := lit "table:table-row".
Definition a_disp : str := lit "table:display".
Definition a_crep : str := lit "table:number-columns-repeated".
Definition a_rrep : str := lit "table:number-rows-repeated".
Definition a_style : str := lit "table:style-name".
Definition a_dstyle : str := lit "table:default-cell-style-name".
Definition a_vis : str := lit "table:visibility".

(** ** Writing *)

(** The calls of the writer, grouped: [xml_out.elem] or [.empty] with the attribute calls that
    follow it, [.end_elem], one call of [write_cell], one of [write_xmltag]. *)
Inductive titem :=
| TOpen (n : str) (a : list call) | TClose (n : str) | TEmpty (n : str) (a : list call)
| TCell (c : cell) (hidden : bool) (repeat : N) | TNode (x : xnode).
Definition item_calls (ds : vtype -> option str) (i : titem) : list call :=
  match i with
  | TOpen n a => CElem n :: a
  | TClose n => [CEnd n]
  | TEmpty n a => CEmpty n :: a
  | TCell c h k => write_cell ds c h k
  | TNode x => write_node x
  end.

Definition display_attr (d : bool) : list call := if d then [] else [CAttr a_disp (lit "false")].
Definition vis_attr (v : visibility) : list call :=
  match v with Visible => [] | _ => [CAttrEsc a_vis (show_visibility v)] end.
Definition in_range (r : range) (c : N) : bool := (fst r <=? c) && (c <=? snd r).
Definition in_header (o : option range) (c : N) : bool := match o with Some r => in_range r c | None => false end.

(** write.rs:2047-2054: the number of columns. *)
Fixpoint groups_max (m : N) (gs : list grouped) : res N :=
  match gs with [] => Ok m | g :: r => let* t := add32 (g_to g) 1 in groups_max (N.max m t) r end.
Definition max_col (w : N) (gs : list grouped) (hc : option range) : res N :=
  let* m := groups_max w gs in
  match hc with Some (_, t) => let* t1 := add32 t 1 in Ok (N.max m t1) | None => Ok m end.

(** write.rs:2086-2098: the attributes of one column; its span. *)
Definition col_attrs (h : hdr colattr) : list call :=
  num_attr a_crep (h_span h) ++ opt_attr a_style (ca_style (h_attr h))
  ++ opt_attr a_dstyle (ca_cellstyle (h_attr h)) ++ vis_attr (ca_visible (h_attr h)).
Definition col_item (m : hmap colattr) (c : N) : titem * N :=
  match hget c m with
  | Some h => (TEmpty t_column (col_attrs h), h_span h)
  | None => (TEmpty t_column [], 1)
  end.
Definition opens (t : str) (k : N) (gs : list grouped) : list titem :=
  map (fun g => TOpen t (display_attr (g_display g))) (filter (fun g => g_from g =? k) gs).
Definition closes (t : str) (k : N) (gs : list grouped) : list titem :=
  map (fun _ => TClose t) (filter (fun g => g_to g =? k) gs).
Definition around (b : bool) (t : str) (l : list titem) : list titem := if b then TOpen t [] :: l ++ [TClose t] else l.
(** write.rs:2056-2114: the loop. [debug_assert!(span > 0)]; without it a span of zero would
    loop for ever. [n] bounds the number of columns written. *)
Fixpoint write_cols (s : sheet) (mx : N) (n : nat) (c : N) : res (list titem) :=
  match n with
  | O => Ok []
  | S n' =>
      if mx <=? c then Ok []
      else
        let '(it, span) := col_item (tb_cols s) c in
        if span =? 0 then Panic
        else
          let* c' := add32 c span in
          let* rest := write_cols s mx n' c' in
          Ok (opens t_cgroup c (tb_gcols s) ++ around (in_header (tb_hcols s) c) t_hcols [it]
              ++ closes t_cgroup c (tb_gcols s) ++ rest)
  end.
(** write.rs:2042-2116 [write_table_columns]. *)
Definition write_table_columns (s : sheet) (w : N) : res (list titem) :=
  let* mx := max_col w (tb_gcols s) (tb_hcols s) in write_cols s mx (N.to_nat mx) 0.

(** write.rs:1811-1826 [write_empty_cells]. *)
Definition empty_cells (hidden : bool) (k : N) : titem :=
  TEmpty (cell_tag hidden) (if 1 <? k then [CAttr a_crep (show_N k)] else []).

(** The variables [row_group_count] and [row_header]. *)
Record wst := WST { w_count : N; w_head : bool }.

(** write.rs:1840-1854: a group that starts in the row, or within its repeats. *)
Definition within (r rep k : N) : res bool :=
  if k =? r then Ok true else if r <? k then let* e := add32 r rep in Ok (k <? e) else Ok false.
Fixpoint open_groups (r rep : N) (gs : list grouped) (s : wst) : res (list titem * wst) :=
  match gs with
  | [] => Ok ([], s)
  | g :: rest =>
      let* b := within r rep (g_from g) in
      if b then
        let* (o, s') := open_groups r rep rest (WST (w_count s + 1) (w_head s)) in
        Ok (TOpen t_rgroup (display_attr (g_display g)) :: o, s')
      else open_groups r rep rest s
  end.
(** write.rs:1918-1927. *)
Fixpoint close_groups (r rep : N) (gs : list grouped) (s : wst) : res (list titem * wst) :=
  match gs with
  | [] => Ok ([], s)
  | g :: rest =>
      let* b := within r rep (g_to g) in
      if b then
        let* n := sub32 (w_count s) 1 in
        let* (o, s') := close_groups r rep rest (WST n (w_head s)) in
        Ok (TClose t_rgroup :: o, s')
      else close_groups r rep rest s
  end.

(** write.rs:1868-1882, 2024-2034: the attributes of a row; the repeat count is written first. *)
Definition row_header_attrs (h : hdr rowattr) : list call :=
  opt_attr a_style (ra_style (h_attr h)) ++ opt_attr a_dstyle (ra_cellstyle (h_attr h)) ++ vis_attr (ra_visible (h_attr h)).
Definition row_attrs (m : hmap rowattr) (r : N) : res (list call) :=
  let* h := valid_header r m in
  Ok (match h with Some h => num_attr a_rrep (ra_repeat (h_attr h)) ++ row_header_attrs h | None => [] end).
Definition empty_row_attrs (m : hmap rowattr) (r rep : N) : res (list call) :=
  let* h := valid_header r m in
  Ok (CAttr a_rrep (show_N rep) :: match h with Some h => row_header_attrs h | None => [] end).

(** write.rs:1858, 1910: the same test for the first and last header row, written as one comparison. *)
Definition within_header (r rep k : N) : res bool :=
  if r <=? k then let* e := add32 r rep in Ok (k <? e) else Ok false.

(** write.rs:1828-1893 [write_start_current_row]. *)
Definition start_row (sh : sheet) (r rep back : N) (s : wst) : res (list titem * wst) :=
  let* (o, s1) := open_groups r rep (tb_grows sh) s in
  let* hd := match tb_hrows sh with Some (f, _) => within_header r rep f | None => Ok false end in
  let s2 := WST (w_count s1) (hd || w_head s1) in
  let* a := row_attrs (tb_rows sh) r in
  Ok (o ++ (if w_head s2 then [TOpen t_hrows []] else []) ++ TOpen t_row a
      :: (if 0 <? back then [TEmpty t_cell (num_attr a_crep back)] else []), s2).

(** write.rs:1895-1930 [write_end_prev_row]. *)
Definition end_row (sh : sheet) (r rep : N) (s : wst) : res (list titem * wst) :=
  let* hd := match tb_hrows sh with Some (_, t) => within_header r rep t | None => Ok false end in
  let* (o, s') := close_groups r rep (tb_grows sh) (WST (w_count s) (w_head s && negb hd)) in
  Ok (TClose t_row :: (if w_head s then [TClose t_hrows] else []) ++ o, s').
(** write.rs:1932-1954 [write_end_last_row]. *)
Definition end_last_row (s : wst) : list titem :=
  TClose t_row :: (if w_head s then [TClose t_hrows] else []) ++ repeat (TClose t_rgroup) (N.to_nat (w_count s)).

(** write.rs:2012-2040 [write_empty_row]. *)
Definition empty_row (sh : sheet) (r rep w : N) : res (list titem) :=
  let* a := empty_row_attrs (tb_rows sh) r rep in
  Ok [TOpen t_row a; TEmpty t_cell [CAttr a_crep (show_N w)]; TClose t_row].
(** write.rs:1966-2005: one row of the loop, used if there are groups or header rows. *)
Fixpoint close_at (r : N) (gs : list grouped) (n : N) : res (list titem * N) :=
  match gs with
  | [] => Ok ([], n)
  | g :: rest =>
      if g_to g =? r then let* n' := sub32 n 1 in let* (o, n2) := close_at r rest n' in Ok (TClose t_rgroup :: o, n2)
      else close_at r rest n
  end.
Definition empty_row_in (sh : sheet) (r w : N) (s : wst) : res (list titem * wst) :=
  let c0 := if w_head s then [TClose t_hrows] else [] in
  let h1 := w_head s && negb (match tb_hrows sh with Some (_, t) => t =? r | None => false end) in
  let* (c, n) := close_at r (tb_grows sh) (w_count s) in
  let o := opens t_rgroup r (tb_grows sh) in
  let h2 := h1 || match tb_hrows sh with Some (f, _) => f =? r | None => false end in
  let* row := empty_row sh r 1 w in
  Ok (c0 ++ c ++ o ++ (if h2 then [TOpen t_hrows []] else []) ++ row, WST (n + N.of_nat (length o)) h2).
Fixpoint empty_rows_in (sh : sheet) (n : nat) (r w : N) (s : wst) : res (list titem * wst) :=
  match n with
  | O => Ok ([], s)
  | S n' =>
      let* (a, s1) := empty_row_in sh r w s in
      let* (b, s2) := empty_rows_in sh n' (r + 1) w s1 in Ok (a ++ b, s2)
  end.
(** write.rs:1956-2010 [write_empty_rows_before]. *)
Definition empty_rows (sh : sheet) (r rep w : N) (s : wst) : res (list titem * wst) :=
  if negb (is_nil (tb_grows sh)) || CellModel.is_some (tb_hrows sh) then
    let* _ := add32 r rep in empty_rows_in sh (N.to_nat rep) r w s
  else let* o := empty_row sh r rep w in Ok (o, s).

(** write.rs:1723, 1748-1757, 1767-1776: the pieces of a run of columns. *)
Fixpoint pieces (f : bool -> N -> titem) (l : list split) : res (list titem) :=
  match l with
  | [] => Ok []
  | s :: r => let* k := s_repeat s in let* o := pieces f r in Ok (f (s_hidden s) k :: o)
  end.
(** write.rs:1741-1777: the empty cells behind a cell. *)
Definition gap_cells (spans : list cellrange) (r c w : N) : res (list titem) :=
  if 0 <? w then let* sp := split_hidden spans r c w in pieces empty_cells sp else Ok [].

(** The position of the previous cell and the repeat of its row; [None] before the first cell,
    where [prev_row] is 0 and [prev_row_repeat] 1. *)
Record prev := PREV { pv_row : N; pv_rep : N; pv_col : N }.

(** write.rs:1623-1799: one cell; [next] is the position of the following cell.
    [hide_cell] is 1723-1737. Returns the spans and the row state. *)
Definition row_repeat_at (m : hmap rowattr) (r : N) : N := match hget r m with Some h => ra_repeat (h_attr h) | None => 1 end.
Definition write_cell_at (sh : sheet) (mx : pos) (pv : option prev) (spans : list cellrange) (s : wst)
    (p : pos) (c : cell) (next : option pos) : res (list titem * list cellrange * wst) :=
  let '(row, col) := p in
  let rep := row_repeat_at (tb_rows sh) row in
  let k := c_repeat c in
  let '(nrow, ncol) := match next with Some q => q | None => mx end in
  let* fr := sub32 nrow row in
  let* fc := if 0 <? fr then sub32 (snd mx) col else sub32 ncol col in
  let '(prow, prep, pcol) := match pv with Some v => (pv_row v, pv_rep v, pv_col v) | None => (0, 1, 0) end in
  let first := match pv with None => true | Some _ => false end in
  let* br := sub32 row prow in
  let* bc := if 0 <? br then Ok col else sub32 col pcol in
  let* (o1, s1) := if (0 <? br) && negb first then end_row sh prow prep s else Ok ([], s) in
  let* (o2, s2) :=
    if 0 <? br then
      if br <? prep then Err
      else
        let* synth := (if first then add32 (br - prep) 1 else Ok (br - prep)) in
        let* r0 := sub32 row synth in
        if 0 <? synth then empty_rows sh r0 synth (snd mx) s1 else Ok ([], s1)
    else Ok ([], s1) in
  let* (o3, s3) := if (0 <? br) || first then start_row sh row rep bc s2 else Ok ([], s2) in
  let* (spans', sp) := hide_cell spans (p, c) in
  let* o4 := pieces (TCell c) sp in
  let* o5 :=
    if 0 <? fr then
      let w := fc - k in
      if 0 <? w then let* c0 := add32 col k in gap_cells spans' row c0 w else Ok []
    else if 0 <? fc then
      if fc <? k then Err
      else let w := fc - k in if 0 <? w then let* c0 := add32 col k in gap_cells spans' row c0 w else Ok []
    else Ok [] in
  let o6 := match next with None => end_last_row s3 | Some _ => [] end in
  Ok (o1 ++ o2 ++ o3 ++ o4 ++ o5 ++ o6, spans', s3).
Fixpoint write_cells (sh : sheet) (mx : pos) (pv : option prev) (spans : list cellrange) (s : wst) (l : cells) : res (list titem) :=
  match l with
  | [] => Ok []
  | (p, c) :: r =>
      let* (o, spans', s') := write_cell_at sh mx pv spans s p c (match r with kv :: _ => Some (fst kv) | [] => None end) in
      let* rest := write_cells sh mx (Some (PREV (fst p) (row_repeat_at (tb_rows sh) (fst p)) (snd p))) spans' s' r in
      Ok (o ++ rest)
  end.

(** write.rs:1583-1598: the attributes of the table. *)
Definition table_attrs (sh : sheet) : res (list call) :=
  let* pr := match tb_ranges sh with
             | Some l => let* t := format_cellranges l in Ok [CAttrEsc (lit "table:print-ranges") t]
             | None => Ok [] end in
  Ok (CAttrEsc (lit "table:name") (tb_name sh) :: opt_attr a_style (tb_style sh) ++ pr
      ++ (if tb_print sh then [] else [CAttr (lit "table:print") (lit "false")])
      ++ (if tb_display sh then [] else [CAttr (lit "table:display") (lit "false")])).

(** write.rs:1600-1612 and 1803-1807: extra tags before and behind the table. *)
Definition prelude : list str :=
  [lit "table:title"; lit "table:desc"; lit "table:table-source"; lit "office:dde-source"; lit "table:scenario";
   lit "office:forms"; lit "table:shapes"].
Definition epilogue : list str := [lit "table:named-expressions"; lit "calcext:conditional-formats"].
Definition is_tag (l : list str) (x : xnode) : bool :=
  match x with XTag n _ _ => existsb (str_eqb n) l | XText _ => false end.
Definition nodes_in (l : list str) (e : list xnode) : list titem := map TNode (filter (is_tag l) e).

(** write.rs:1576-1809 [write_sheet]. *)
Definition table_items (sh : sheet) : res (list titem) :=
  let* mx := used_grid_size (tb_cells sh) in
  let* cols := write_table_columns sh (snd mx) in
  let* rows := write_cells sh mx None [] (WST 0 false) (tb_cells sh) in
  Ok (nodes_in prelude (tb_extra sh) ++ cols ++ rows).
Definition write_sheet (ds : vtype -> option str) (sh : sheet) : res (list call) :=
  let* a := table_attrs sh in
  let* body := table_items sh in
  Ok (CElem t_table :: a ++ flat_map (item_calls ds) body
      ++ CEnd t_table :: flat_map (item_calls ds) (nodes_in epilogue (tb_extra sh))).

(** ** Reading *)

(** read.rs:914-945: the sheet and the variables of [read_table]. *)
Record tstate := TS {
  ts_sheet : sheet; ts_row : N; ts_col : N; ts_data : bool; ts_cfrom : N; ts_cgroup : list grouped;
  ts_rep : N; ts_rfrom : N; ts_rgroup : list grouped }.
Definition sheet0 : sheet := Sheet [] None None true true [] [] [] [] [] None None [].

(** read.rs:1097-1128 [read_table_attr]. *)
Definition table_attr (sh : sheet) (kv : str * str) : res sheet :=
  let v := snd kv in
  let '(Sheet n st pr p d e cs rs gc gr hc hr m) := sh in
  if str_eqb (fst kv) (lit "table:name") then Ok (Sheet v st pr p d e cs rs gc gr hc hr m)
  else if str_eqb (fst kv) a_style then Ok (Sheet n (Some v) pr p d e cs rs gc gr hc hr m)
  else if str_eqb (fst kv) (lit "table:print") then let* b := parse_bool (raw v) in Ok (Sheet n st pr b d e cs rs gc gr hc hr m)
  else if str_eqb (fst kv) a_disp then let* b := parse_bool (raw v) in Ok (Sheet n st pr p b e cs rs gc gr hc hr m)
  else if str_eqb (fst kv) (lit "table:print-ranges") then let* l := parse_cellranges v in Ok (Sheet n st l p d e cs rs gc gr hc hr m)
  else Ok sh.
Fixpoint fold_attrs {A} (f : A -> str * str -> res A) (s : A) (l : list (str * str)) : res A :=
  match l with [] => Ok s | kv :: r => let* s' := f s kv in fold_attrs f s' r end.

(** read.rs:1131-1172 [read_table_row_attr]: repeat count and header, if any attribute needs one. *)
Definition row_attr (s : N * option rowattr) (kv : str * str) : res (N * option rowattr) :=
  let '(n, o) := s in
  let v := snd kv in
  let h := match o with Some h => h | None => rowattr0 end in
  if str_eqb (fst kv) a_rrep then let* k := parse_u32 (raw v) in Ok (k, o)
  else if str_eqb (fst kv) a_style then Ok (n, Some (row_edit (SetRowStyle (Some v)) h))
  else if str_eqb (fst kv) a_dstyle then Ok (n, Some (row_edit (SetRowCellStyle (Some v)) h))
  else if str_eqb (fst kv) a_vis then let* x := parse_visibility (raw v) in Ok (n, Some (row_edit (SetRowVisible x) h))
  else Ok s.
Definition read_row (a : list (str * str)) (row : N) (m : hmap rowattr) : res (N * hmap rowattr) :=
  let* (n, o) := fold_attrs row_attr (1, None) a in
  Ok (n, match o with Some h => hput row (mkHdr (row_edit (SetRowRepeat n) h) 1) m | None => m end).

(** read.rs:1230-1270 [read_table_col_attr]. *)
Definition col_attr (s : N * option colattr) (kv : str * str) : res (N * option colattr) :=
  let '(n, o) := s in
  let v := snd kv in
  let h := match o with Some h => h | None => colattr0 end in
  if str_eqb (fst kv) a_crep then let* k := parse_u32 (raw v) in Ok (k, o)
  else if str_eqb (fst kv) a_style then Ok (n, Some (col_edit (SetColStyle (Some v)) h))
  else if str_eqb (fst kv) a_dstyle then Ok (n, Some (col_edit (SetColCellStyle (Some v)) h))
  else if str_eqb (fst kv) a_vis then let* x := parse_visibility (raw v) in Ok (n, Some (col_edit (SetColVisible x) h))
  else Ok s.
Definition read_col (a : list (str * str)) (col : N) (m : hmap colattr) : res (N * hmap colattr) :=
  let* (n, o) := fold_attrs col_attr (1, None) a in
  Ok (n, match o with Some h => hput col (mkHdr h n) m | None => m end).

(** read.rs:1175-1228 the group attributes. *)
Definition group_attr (d : bool) (kv : str * str) : res bool := if str_eqb (fst kv) a_disp then parse_bool (raw (snd kv)) else Ok d.
Definition read_group (a : list (str * str)) (k : N) : res grouped := let* d := fold_attrs group_attr true a in Ok (mkGrp k 0 d).

(** The changes of the state. *)
Definition on_sheet (f : sheet -> sheet) (s : tstate) : tstate :=
  TS (f (ts_sheet s)) (ts_row s) (ts_col s) (ts_data s) (ts_cfrom s) (ts_cgroup s) (ts_rep s) (ts_rfrom s) (ts_rgroup s).
Definition add_extra (x : xnode) (sh : sheet) : sheet :=
  Sheet (tb_name sh) (tb_style sh) (tb_ranges sh) (tb_print sh) (tb_display sh) (tb_extra sh ++ [x]) (tb_cols sh) (tb_rows sh)
    (tb_gcols sh) (tb_grows sh) (tb_hcols sh) (tb_hrows sh) (tb_cells sh).
Definition put_cols (m : hmap colattr) (sh : sheet) : sheet :=
  Sheet (tb_name sh) (tb_style sh) (tb_ranges sh) (tb_print sh) (tb_display sh) (tb_extra sh) m (tb_rows sh)
    (tb_gcols sh) (tb_grows sh) (tb_hcols sh) (tb_hrows sh) (tb_cells sh).
Definition put_rows (m : hmap rowattr) (sh : sheet) : sheet :=
  Sheet (tb_name sh) (tb_style sh) (tb_ranges sh) (tb_print sh) (tb_display sh) (tb_extra sh) (tb_cols sh) m
    (tb_gcols sh) (tb_grows sh) (tb_hcols sh) (tb_hrows sh) (tb_cells sh).
Definition add_gcol (g : grouped) (sh : sheet) : sheet :=
  Sheet (tb_name sh) (tb_style sh) (tb_ranges sh) (tb_print sh) (tb_display sh) (tb_extra sh) (tb_cols sh) (tb_rows sh)
    (tb_gcols sh ++ [g]) (tb_grows sh) (tb_hcols sh) (tb_hrows sh) (tb_cells sh).
Definition add_grow (g : grouped) (sh : sheet) : sheet :=
  Sheet (tb_name sh) (tb_style sh) (tb_ranges sh) (tb_print sh) (tb_display sh) (tb_extra sh) (tb_cols sh) (tb_rows sh)
    (tb_gcols sh) (tb_grows sh ++ [g]) (tb_hcols sh) (tb_hrows sh) (tb_cells sh).
Definition put_hcols (h : range) (sh : sheet) : sheet :=
  Sheet (tb_name sh) (tb_style sh) (tb_ranges sh) (tb_print sh) (tb_display sh) (tb_extra sh) (tb_cols sh) (tb_rows sh)
    (tb_gcols sh) (tb_grows sh) (Some h) (tb_hrows sh) (tb_cells sh).
Definition put_hrows (h : range) (sh : sheet) : sheet :=
  Sheet (tb_name sh) (tb_style sh) (tb_ranges sh) (tb_print sh) (tb_display sh) (tb_extra sh) (tb_cols sh) (tb_rows sh)
    (tb_gcols sh) (tb_grows sh) (tb_hcols sh) (Some h) (tb_cells sh).
Definition put_cells (m : cells) (sh : sheet) : sheet :=
  Sheet (tb_name sh) (tb_style sh) (tb_ranges sh) (tb_print sh) (tb_display sh) (tb_extra sh) (tb_cols sh) (tb_rows sh)
    (tb_gcols sh) (tb_grows sh) (tb_hcols sh) (tb_hrows sh) m.

(** [header_rows.to = row - 1] or a new range; the subtraction panics for 0. *)
Definition extend_header (o : option range) (from k : N) : res range :=
  let* t := sub32 k 1 in Ok (match o with Some (f, _) => (f, t) | None => (from, t) end).

(** Which function reads: [read_table], [read_table_cell] or [read_xml]. *)
Inductive tmode := MTable | MCell (tag : str) (s : cellacc) (m : cmode) | MTree (tag : str) (st : list frame).

(** read.rs:1303-1308, 1074-1078: the default cell style of the column; the end of a cell. *)
Definition col_default (s : tstate) : res (option str) :=
  let* h := valid_header (ts_col s) (tb_cols (ts_sheet s)) in Ok (match h with Some h => ca_cellstyle (h_attr h) | None => None end).
Definition store_cell (s : tstate) (x : N * option cell) : res tstate :=
  let '(k, o) := x in
  let* c := add32 (ts_col s) k in
  let sh := match o with Some cl => put_cells (om_insert pltb (ts_row s, ts_col s) cl (tb_cells (ts_sheet s))) (ts_sheet s) | None => ts_sheet s end in
  Ok (TS sh (ts_row s) c (ts_data s || CellModel.is_some o) (ts_cfrom s) (ts_cgroup s) (ts_rep s) (ts_rfrom s) (ts_rgroup s)).

(** read.rs:1033-1063: the end of a row. *)
Definition end_of_row (s : tstate) : res tstate :=
  let* rs := if ts_data s then set_row (ts_row s) (SetRowRepeat (ts_rep s)) (tb_rows (ts_sheet s)) else Ok (tb_rows (ts_sheet s)) in
  let* r := add32 (ts_row s) (ts_rep s) in
  Ok (TS (put_rows rs (ts_sheet s)) r (ts_col s) false (ts_cfrom s) (ts_cgroup s) 1 (ts_rfrom s) (ts_rgroup s)).

(** read.rs:946-1086: one event of the loop of [read_table]; [inr] is the end of the table.
    The end of the file inside the table is never noticed by the loop: an error here. *)
Definition table_event (ign : bool) (s : tstate) (e : event) : res (tstate * tmode + tstate) :=
  match e with
  | EEnd n =>
      if str_eqb n t_table then Ok (inr s)
      else if str_eqb n t_cgroup then
        match ts_cgroup s with
        | g :: r =>
            let* t := sub32 (ts_col s) 1 in
            Ok (inl (TS (add_gcol (mkGrp (g_from g) t (g_display g)) (ts_sheet s)) (ts_row s) (ts_col s) (ts_data s) (ts_cfrom s) r
                 (ts_rep s) (ts_rfrom s) (ts_rgroup s), MTable))
        | [] => Ok (inl (s, MTable))
        end
      else if str_eqb n t_hcols then
        let* h := extend_header (tb_hcols (ts_sheet s)) (ts_cfrom s) (ts_col s) in Ok (inl (on_sheet (put_hcols h) s, MTable))
      else if str_eqb n t_rgroup then
        match ts_rgroup s with
        | g :: r =>
            let* t := sub32 (ts_row s) 1 in
            Ok (inl (TS (add_grow (mkGrp (g_from g) t (g_display g)) (ts_sheet s)) (ts_row s) (ts_col s) (ts_data s) (ts_cfrom s) (ts_cgroup s)
                 (ts_rep s) (ts_rfrom s) r, MTable))
        | [] => Ok (inl (s, MTable))
        end
      else if str_eqb n t_hrows then
        let* h := extend_header (tb_hrows (ts_sheet s)) (ts_rfrom s) (ts_row s) in Ok (inl (on_sheet (put_hrows h) s, MTable))
      else if str_eqb n t_row then let* s' := end_of_row s in Ok (inl (s', MTable))
      else Ok (inl (s, MTable))
  | EStart n a =>
      if existsb (str_eqb n) (prelude ++ epilogue) then Ok (inl (s, MTree n [(n, a, [])]))
      else if str_eqb n t_cgroup then
        let* g := read_group a (ts_col s) in
        Ok (inl (TS (ts_sheet s) (ts_row s) (ts_col s) (ts_data s) (ts_cfrom s) (g :: ts_cgroup s) (ts_rep s) (ts_rfrom s) (ts_rgroup s), MTable))
      else if str_eqb n t_hcols then
        Ok (inl (TS (ts_sheet s) (ts_row s) (ts_col s) (ts_data s) (ts_col s) (ts_cgroup s) (ts_rep s) (ts_rfrom s) (ts_rgroup s), MTable))
      else if str_eqb n t_rgroup then
        let* g := read_group a (ts_row s) in
        Ok (inl (TS (ts_sheet s) (ts_row s) (ts_col s) (ts_data s) (ts_cfrom s) (ts_cgroup s) (ts_rep s) (ts_rfrom s) (g :: ts_rgroup s), MTable))
      else if str_eqb n t_hrows then
        Ok (inl (TS (ts_sheet s) (ts_row s) (ts_col s) (ts_data s) (ts_cfrom s) (ts_cgroup s) (ts_rep s) (ts_row s) (ts_rgroup s), MTable))
      else if str_eqb n t_row then
        let* (k, m) := read_row a (ts_row s) (tb_rows (ts_sheet s)) in
        Ok (inl (TS (put_rows m (ts_sheet s)) (ts_row s) 0 (ts_data s) (ts_cfrom s) (ts_cgroup s) k (ts_rfrom s) (ts_rgroup s), MTable))
      else if str_eqb n t_cell || str_eqb n t_covered then
        let* _ := col_default s in let* x := cell_read_attrs cellacc0 a in Ok (inl (s, MCell n x KCell))
      else Ok (inl (s, MTable))
  | EEmpty n a =>
      if existsb (str_eqb n) (prelude ++ epilogue) then Ok (inl (on_sheet (add_extra (XTag n a [])) s, MTable))
      else if str_eqb n t_column then
        let* (k, m) := read_col a (ts_col s) (tb_cols (ts_sheet s)) in
        let* c := add32 (ts_col s) k in
        Ok (inl (TS (put_cols m (ts_sheet s)) (ts_row s) c (ts_data s) (ts_cfrom s) (ts_cgroup s) (ts_rep s) (ts_rfrom s) (ts_rgroup s), MTable))
      else if str_eqb n t_cell || str_eqb n t_covered then
        let* d := col_default s in let* x := cell_read_attrs cellacc0 a in
        let* x := cell_finish ign d x in let* s' := store_cell s x in Ok (inl (s', MTable))
      else Ok (inl (s, MTable))
  | _ => Ok (inl (s, MTable))
  end.
Definition table_step (ign : bool) (s : tstate) (m : tmode) (e : event) : res (tstate * tmode + tstate) :=
  match m with
  | MTable => table_event ign s e
  | MCell tag x cm =>
      let* r := cell_step tag x cm e in
      match r with
      | inl (x', cm') => Ok (inl (s, MCell tag x' cm'))
      | inr x' =>
          let* d := col_default s in
          let* y := cell_finish ign d x' in let* s' := store_cell s y in Ok (inl (s', MTable))
      end
  | MTree tag st =>
      let* r := tree_step tag st e in
      match r with
      | inl st' => Ok (inl (s, MTree tag st'))
      | inr x => Ok (inl (on_sheet (add_extra x) s, MTable))
      end
  end.
Fixpoint table_loop (ign : bool) (s : tstate) (m : tmode) (evs : list event) : res (tstate * list event) :=
  match evs with
  | [] => Err
  | e :: r =>
      let* x := table_step ign s m e in
      match x with
      | inl (s', m') => table_loop ign s' m' r
      | inr s' => Ok (s', r)
      end
  end.
(** read.rs:914-1094 [read_table], on the events from the start tag of the table on. *)
Definition read_table (ign : bool) (evs : list event) : res (sheet * list event) :=
  match evs with
  | EStart _ a :: r =>
      let* sh := fold_attrs table_attr sheet0 a in
      let* (s, r') := table_loop ign (TS sh 0 0 false 0 [] 1 0 []) MTable r in Ok (ts_sheet s, r')
  | _ => Err
  end.
