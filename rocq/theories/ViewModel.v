(** The view options of the workbook and its sheets, kept in the settings tree: write.rs [calc_config], read.rs [calc_derived]. *)
From Verif Require Import Base BookModel CellModel NumModel EnumModel ConfigModel.

(** workbook_.rs:1182-1204 [WorkBookConfig]. *)
Record bookcfg : Type := BookCfg { bc_active : str; bc_grid : bool; bc_breaks : bool; bc_tabs : bool }.
Definition bookcfg0 : bookcfg := BookCfg [] true false true.
(** sheet_.rs:1625-1701 [SheetConfig]. *)
Record sheetcfg : Type := SheetCfg {
  sc_cursor_x : N; sc_cursor_y : N; sc_hor_mode : splitmode; sc_vert_mode : splitmode; sc_hor_pos : N; sc_vert_pos : N;
  sc_active_range : Z; sc_left : N; sc_right : N; sc_top : N; sc_bottom : N;
  sc_zoom_type : Z; sc_zoom : Z; sc_page_zoom : Z; sc_grid : bool }.
Definition sheetcfg0 : sheetcfg := SheetCfg 0 0 SplitNone SplitNone 0 0 2 0 0 0 0 0 100 60 true.

(** config.rs:84-88: a u32 is stored [as i32]. *)
Definition u32_value (n : N) : cvalue := VInt (as_i32 (Z.of_N n)).
(** [as u32] of an i32. *)
Definition i32_as_u32 (z : Z) : N := Z.to_N (z mod 4294967296)%Z.

(** ** Writing: write.rs:562-622 [calc_config] *)

Definition p_view : list (str * ctype) := [(lit "ooo:view-settings", Some KSet); (lit "Views", Some KVec); (lit "0", Some KEntry)].
Definition p_table (name : str) : list (str * ctype) := p_view ++ [(lit "Tables", Some KMap); (name, Some KEntry)].
Definition p_script (name : str) : list (str * ctype) :=
  [(lit "ooo:configuration-settings", Some KSet); (lit "ScriptConfiguration", Some KMap); (name, Some KEntry)].
(** Several insertions through the reference [create_path] gives. *)
Fixpoint insert_all (l : list (str * cvalue)) (i : citem) : res citem :=
  match l with [] => Ok i | (n, v) :: r => let* j := ci_insert n (CVal v) i in insert_all r j end.
Definition book_values (b : bookcfg) : list (str * cvalue) :=
  [(lit "ActiveTable", VString (bc_active b)); (lit "HasSheetTabs", VBool (bc_tabs b)); (lit "ShowGrid", VBool (bc_grid b));
   (lit "ShowPageBreaks", VBool (bc_breaks b))].
Definition sheet_values (s : sheetcfg) : list (str * cvalue) :=
  [(lit "CursorPositionX", u32_value (sc_cursor_x s)); (lit "CursorPositionY", u32_value (sc_cursor_y s));
   (lit "HorizontalSplitMode", VShort (splitmode_i16 (sc_hor_mode s))); (lit "VerticalSplitMode", VShort (splitmode_i16 (sc_vert_mode s)));
   (lit "HorizontalSplitPosition", u32_value (sc_hor_pos s)); (lit "VerticalSplitPosition", u32_value (sc_vert_pos s));
   (lit "ActiveSplitRange", VShort (sc_active_range s));
   (lit "PositionLeft", u32_value (sc_left s)); (lit "PositionRight", u32_value (sc_right s));
   (lit "PositionTop", u32_value (sc_top s)); (lit "PositionBottom", u32_value (sc_bottom s));
   (lit "ZoomType", VShort (sc_zoom_type s)); (lit "ZoomValue", VInt (sc_zoom s)); (lit "PageViewZoomValue", VInt (sc_page_zoom s));
   (lit "ShowGrid", VBool (sc_grid s))].
Fixpoint calc_sheets (l : list (str * sheetcfg)) (c : citem) : res citem :=
  match l with
  | [] => Ok c
  | (name, s) :: r =>
      let* c1 := ci_path (p_table name) (insert_all (sheet_values s)) c in
      let* c2 := ci_path (p_script name) (insert_all [(lit "CodeName", VString name)]) c1 in
      calc_sheets r c2
  end.
(** A sheet is its name and its options here. The path is made before the first sheet is looked at; both can only panic. *)
Definition calc_config (b : bookcfg) (sheets : list (str * sheetcfg)) (c : citem) : res (bookcfg * citem) :=
  let* b' := match bc_active b, sheets with
             | [], [] => Panic
             | [], (name, _) :: _ => Ok (BookCfg name (bc_grid b) (bc_breaks b) (bc_tabs b))
             | _, _ => Ok b
             end in
  let* c1 := ci_path p_view (insert_all (book_values b')) c in
  let* c2 := calc_sheets sheets c1 in
  Ok (b', c2).

(** ** Reading: read.rs:621-733 [calc_derived]; column widths and row heights are set there too, not here *)

Definition path (p : list (str * ctype)) : list str := map fst p.
Definition str_of (d : str) (v : option cvalue) : str := match v with Some (VString s) => s | _ => d end.
Definition bool_of (d : bool) (v : option cvalue) : bool := match v with Some (VBool b) => b | _ => d end.
Definition u32_of (d : N) (v : option cvalue) : N := match v with Some (VInt z) => i32_as_u32 z | _ => d end.
Definition i32_of (d : Z) (v : option cvalue) : Z := match v with Some (VInt z) => z | _ => d end.
Definition i16_of (d : Z) (v : option cvalue) : Z := match v with Some (VShort z) => z | _ => d end.
Definition mode_of (d : splitmode) (v : option cvalue) : res splitmode := match v with Some (VShort z) => i16_splitmode z | _ => Ok d end.
Definition derive_book (c : citem) (b : bookcfg) : bookcfg :=
  let g := fun n => ci_get_value (path p_view ++ [n]) c in
  BookCfg (str_of (bc_active b) (g (lit "ActiveTable"))) (bool_of (bc_grid b) (g (lit "ShowGrid")))
    (bool_of (bc_breaks b) (g (lit "ShowPageBreaks"))) (bool_of (bc_tabs b) (g (lit "HasSheetTabs"))).
(** The zoom of the page view is not read. *)
Definition derive_sheet (c : citem) (name : str) (s : sheetcfg) : res sheetcfg :=
  match ci_get (path (p_table name)) c with
  | None => Ok s
  | Some cc =>
      let g := fun n => ci_get_value [n] cc in
      let* hm := mode_of (sc_hor_mode s) (g (lit "HorizontalSplitMode")) in
      let* vm := mode_of (sc_vert_mode s) (g (lit "VerticalSplitMode")) in
      Ok (SheetCfg (u32_of (sc_cursor_x s) (g (lit "CursorPositionX"))) (u32_of (sc_cursor_y s) (g (lit "CursorPositionY"))) hm vm
            (u32_of (sc_hor_pos s) (g (lit "HorizontalSplitPosition"))) (u32_of (sc_vert_pos s) (g (lit "VerticalSplitPosition")))
            (i16_of (sc_active_range s) (g (lit "ActiveSplitRange")))
            (u32_of (sc_left s) (g (lit "PositionLeft"))) (u32_of (sc_right s) (g (lit "PositionRight")))
            (u32_of (sc_top s) (g (lit "PositionTop"))) (u32_of (sc_bottom s) (g (lit "PositionBottom")))
            (i16_of (sc_zoom_type s) (g (lit "ZoomType"))) (i32_of (sc_zoom s) (g (lit "ZoomValue"))) (sc_page_zoom s)
            (bool_of (sc_grid s) (g (lit "ShowGrid"))))
  end.
Fixpoint derive_sheets (c : citem) (l : list (str * sheetcfg)) : res (list (str * sheetcfg)) :=
  match l with
  | [] => Ok []
  | (name, s) :: r => let* s' := derive_sheet c name s in let* r' := derive_sheets c r in Ok ((name, s') :: r')
  end.
Definition calc_derived (c : citem) (b : bookcfg) (sheets : list (str * sheetcfg)) : res (bookcfg * list (str * sheetcfg)) :=
  let* l := derive_sheets c sheets in Ok (derive_book c b, l).

(** ** Settings of a new workbook: read.rs:3675-3763 [default_settings] *)

Fixpoint paths_all (l : list (list (str * ctype) * list (str * cvalue))) (c : citem) : res citem :=
  match l with [] => Ok c | (p, vs) :: r => let* c' := ci_path p (insert_all vs) c in paths_all r c' end.
Definition default_settings : res citem :=
  let num n := VInt n in let yes := VBool true in let no := VBool false in
  paths_all [
    ([(lit "ooo:view-settings", Some KSet)],
      [(lit "VisibleAreaTop", num 0%Z); (lit "VisibleAreaLeft", num 0%Z); (lit "VisibleAreaWidth", num 2540%Z); (lit "VisibleAreaHeight", num 1270%Z)]);
    (p_view, [(lit "ViewId", VString (lit "view1"))]);
    (p_view ++ [(lit "Tables", Some KMap)], []);
    (p_view, [(lit "ActiveTable", VString []); (lit "HorizontalScrollbarWidth", num 702%Z); (lit "ZoomType", VShort 0); (lit "ZoomValue", num 100%Z);
      (lit "PageViewZoomValue", num 60%Z); (lit "ShowPageBreakPreview", no); (lit "ShowZeroValues", yes); (lit "ShowNotes", yes); (lit "ShowGrid", yes);
      (lit "GridColor", num 12632256%Z); (lit "ShowPageBreaks", no); (lit "HasColumnRowHeaders", yes); (lit "HasSheetTabs", yes);
      (lit "IsOutlineSymbolsSet", yes); (lit "IsValueHighlightingEnabled", no); (lit "IsSnapToRaster", no); (lit "RasterIsVisible", no);
      (lit "RasterResolutionX", num 1000%Z); (lit "RasterResolutionY", num 1000%Z); (lit "RasterSubdivisionX", num 1%Z); (lit "RasterSubdivisionY", num 1%Z);
      (lit "IsRasterAxisSynchronized", yes); (lit "AnchoredTextOverflowLegacy", no)]);
    ([(lit "ooo:configuration-settings", Some KSet)],
      [(lit "HasSheetTabs", yes); (lit "ShowNotes", yes); (lit "EmbedComplexScriptFonts", yes); (lit "ShowZeroValues", yes); (lit "ShowGrid", yes);
      (lit "GridColor", num 12632256%Z); (lit "ShowPageBreaks", no); (lit "IsKernAsianPunctuation", no); (lit "LinkUpdateMode", VShort 3);
      (lit "HasColumnRowHeaders", yes); (lit "EmbedLatinScriptFonts", yes); (lit "IsOutlineSymbolsSet", yes); (lit "EmbedLatinScriptFonts", yes);
      (lit "IsOutlineSymbolsSet", yes); (lit "IsSnapToRaster", no); (lit "RasterIsVisible", no); (lit "RasterResolutionX", num 1000%Z);
      (lit "RasterResolutionY", num 1000%Z); (lit "RasterSubdivisionX", num 1%Z); (lit "RasterSubdivisionY", num 1%Z); (lit "IsRasterAxisSynchronized", yes);
      (lit "AutoCalculate", yes); (lit "ApplyUserData", yes); (lit "PrinterName", VString []); (lit "PrinterSetup", VBase64 []); (lit "SaveThumbnail", yes);
      (lit "CharacterCompressionType", VShort 0); (lit "SaveVersionOnClose", no); (lit "UpdateFromTemplate", yes); (lit "AllowPrintJobCancel", yes);
      (lit "LoadReadonly", no); (lit "IsDocumentShared", no); (lit "EmbedFonts", no); (lit "EmbedOnlyUsedFonts", no); (lit "EmbedAsianScriptFonts", yes);
      (lit "SyntaxStringRef", VShort 7)])] config0.
