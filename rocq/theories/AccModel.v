(** Accessors (C67): the functions that store one field of a structure, add to it, empty it, return it or lend it, each as what it does to which
    field. *)
From Verif Require Import Base Lib.
Require Import String.

(** An object is what its fields hold: a field that is not optional holds one value, an [Option] holds none or one, a [Vec] those it contains.
    An [Option<Vec<_>>] that is [None] and one that is empty are not told apart. Nested structures are fields with a path. *)
Definition object (A : Type) : Type := str -> list A.
Definition upd {A} (p : str) (l : list A) (o : object A) : object A := fun q => if str_eqb q p then l else o q.

(** What a function does with [self] and its argument: store, store unless it is zero (and panic if it is), empty, append, store [true] in some
    fields,
    return, return a [&mut]. *)
Inductive action := APut (p : str) | APutPos (p : str) | AEmpty (p : str) | APush (p : str) | AFix (ps : list str) | ARead (p : str) | ALend (p : str).
Record accessor := Acc { ac_type : str; ac_name : str; ac_act : action }.

(** [pos] tells which values are above zero, [yes] is [true]. *)
Definition call {A} (pos : A -> bool) (yes : A) (a : action) (arg : list A) (o : object A) : res (object A) :=
  match a with
  | APut p => Ok (upd p arg o)
  | APutPos p => if forallb pos arg then Ok (upd p arg o) else Panic
  | AEmpty p => Ok (upd p [] o)
  | APush p => Ok (upd p (o p ++ arg) o)
  | AFix ps => Ok (fold_left (fun o p => upd p [yes] o) ps o)
  | ARead _ | ALend _ => Ok o
  end.
Definition returns {A} (a : action) (o : object A) : list A := match a with ARead p | ALend p => o p | _ => [] end.
(** The change of an object through what is lent. *)
Definition through {A} (a : action) (f : list A -> list A) (o : object A) : object A := match a with ALend p => upd p (f (o p)) o | _ => o end.

(** The functions, with the field as it is named in the source. Left out are arguments that are converted, which the types allow in one way only
    ([into], [to_string], [as_ref], [Some]), and [PageStyle::page_usage], which parses what it returns. [ValueFormat] stands for the seven types that
    macro_format.rs makes, the names in macro_style.rs are listed for each of the eight types it is used for. *)
(** [CRow]: refs.rs:39-41 row, 44-46 set_row, 49-51 row_abs, 54-56 set_row_abs, 59-62 absolute, 66-69 absolute_row. *)
Definition acc_CRow : list accessor := map (fun x => Acc (lit "CRow") (fst x) (snd x))
  [(lit "row", ARead (lit "row"));
   (lit "set_row", APut (lit "row"));
   (lit "row_abs", ARead (lit "row_abs"));
   (lit "set_row_abs", APut (lit "row_abs"));
   (lit "absolute", AFix [lit "row_abs"]);
   (lit "absolute_row", AFix [lit "row_abs"])].
(** [CCol]: refs.rs:97-99 col, 102-104 set_col, 107-109 col_abs, 112-114 set_col_abs, 117-120 absolute, 124-127 absolute_col. *)
Definition acc_CCol : list accessor := map (fun x => Acc (lit "CCol") (fst x) (snd x))
  [(lit "col", ARead (lit "col"));
   (lit "set_col", APut (lit "col"));
   (lit "col_abs", ARead (lit "col_abs"));
   (lit "set_col_abs", APut (lit "col_abs"));
   (lit "absolute", AFix [lit "col_abs"]);
   (lit "absolute_col", AFix [lit "col_abs"])].
(** [CellRef]: refs.rs:211-213 set_iri, 216-218 iri, 221-223 set_table, 226-228 table, 231-233 set_row, 236-238 row, 241-243 set_row_abs, 246-248
    row_abs, 251-253 set_col, 256-258 col, 261-263 set_col_abs, 266-268 col_abs, 281-285 absolute, 289-292 absolute_row, 296-299 absolute_col. *)
Definition acc_CellRef : list accessor := map (fun x => Acc (lit "CellRef") (fst x) (snd x))
  [(lit "set_iri", APut (lit "iri"));
   (lit "iri", ARead (lit "iri"));
   (lit "set_table", APut (lit "table"));
   (lit "table", ARead (lit "table"));
   (lit "set_row", APut (lit "row.row"));
   (lit "row", ARead (lit "row.row"));
   (lit "set_row_abs", APut (lit "row.row_abs"));
   (lit "row_abs", ARead (lit "row.row_abs"));
   (lit "set_col", APut (lit "col.col"));
   (lit "col", ARead (lit "col.col"));
   (lit "set_col_abs", APut (lit "col.col_abs"));
   (lit "col_abs", ARead (lit "col.col_abs"));
   (lit "absolute", AFix [lit "col.col_abs"; lit "row.row_abs"]);
   (lit "absolute_row", AFix [lit "row.row_abs"]);
   (lit "absolute_col", AFix [lit "col.col_abs"])].
(** [CellRange]: refs.rs:479-481 set_iri, 484-486 iri, 489-491 set_table, 494-496 table, 499-501 set_row, 504-506 row, 509-511 set_row_abs, 514-516
    row_abs, 519-521 set_col, 524-526 col, 529-531 set_col_abs, 534-536 col_abs, 539-541 set_to_table, 544-546 to_table, 549-551 set_to_row, 554-556
    to_row, 559-561 set_to_row_abs, 564-566 to_row_abs, 569-571 set_to_col, 574-576 to_col, 579-581 set_to_col_abs, 584-586 to_col_abs, 598-604
    absolute, 608-612 absolute_rows, 616-620 absolute_cols. *)
Definition acc_CellRange : list accessor := map (fun x => Acc (lit "CellRange") (fst x) (snd x))
  [(lit "set_iri", APut (lit "iri"));
   (lit "iri", ARead (lit "iri"));
   (lit "set_table", APut (lit "from_table"));
   (lit "table", ARead (lit "from_table"));
   (lit "set_row", APut (lit "from_row.row"));
   (lit "row", ARead (lit "from_row.row"));
   (lit "set_row_abs", APut (lit "from_row.row_abs"));
   (lit "row_abs", ARead (lit "from_row.row_abs"));
   (lit "set_col", APut (lit "from_col.col"));
   (lit "col", ARead (lit "from_col.col"));
   (lit "set_col_abs", APut (lit "from_col.col_abs"));
   (lit "col_abs", ARead (lit "from_col.col_abs"));
   (lit "set_to_table", APut (lit "to_table"));
   (lit "to_table", ARead (lit "to_table"));
   (lit "set_to_row", APut (lit "to_row.row"));
   (lit "to_row", ARead (lit "to_row.row"));
   (lit "set_to_row_abs", APut (lit "to_row.row_abs"));
   (lit "to_row_abs", ARead (lit "to_row.row_abs"));
   (lit "set_to_col", APut (lit "to_col.col"));
   (lit "to_col", ARead (lit "to_col.col"));
   (lit "set_to_col_abs", APut (lit "to_col.col_abs"));
   (lit "to_col_abs", ARead (lit "to_col.col_abs"));
   (lit "absolute", AFix [lit "from_col.col_abs"; lit "from_row.row_abs"; lit "to_col.col_abs"; lit "to_row.row_abs"]);
   (lit "absolute_rows", AFix [lit "from_row.row_abs"; lit "to_row.row_abs"]);
   (lit "absolute_cols", AFix [lit "from_col.col_abs"; lit "to_col.col_abs"])].
(** [ColRange]: refs.rs:715-717 set_iri, 720-722 iri, 725-727 set_table, 730-732 table, 735-737 set_col, 740-742 col, 745-747 set_col_abs, 750-752
    col_abs, 755-757 set_to_table, 760-762 to_table, 765-767 set_to_col, 770-772 to_col, 775-777 set_to_col_abs, 780-782 to_col_abs, 794-798 absolute.
    *)
Definition acc_ColRange : list accessor := map (fun x => Acc (lit "ColRange") (fst x) (snd x))
  [(lit "set_iri", APut (lit "iri"));
   (lit "iri", ARead (lit "iri"));
   (lit "set_table", APut (lit "from_table"));
   (lit "table", ARead (lit "from_table"));
   (lit "set_col", APut (lit "from_col.col"));
   (lit "col", ARead (lit "from_col.col"));
   (lit "set_col_abs", APut (lit "from_col.col_abs"));
   (lit "col_abs", ARead (lit "from_col.col_abs"));
   (lit "set_to_table", APut (lit "to_table"));
   (lit "to_table", ARead (lit "to_table"));
   (lit "set_to_col", APut (lit "to_col.col"));
   (lit "to_col", ARead (lit "to_col.col"));
   (lit "set_to_col_abs", APut (lit "to_col.col_abs"));
   (lit "to_col_abs", ARead (lit "to_col.col_abs"));
   (lit "absolute", AFix [lit "from_col.col_abs"; lit "to_col.col_abs"])].
(** [RowRange]: refs.rs:882-884 set_iri, 887-889 iri, 892-894 set_table, 897-899 table, 902-904 row, 907-909 set_row, 912-914 set_row_abs, 917-919
    row_abs, 922-924 set_to_table, 927-929 to_table, 932-934 to_row, 937-939 set_to_row, 942-944 set_to_row_abs, 947-949 to_row_abs, 961-965 absolute.
    *)
Definition acc_RowRange : list accessor := map (fun x => Acc (lit "RowRange") (fst x) (snd x))
  [(lit "set_iri", APut (lit "iri"));
   (lit "iri", ARead (lit "iri"));
   (lit "set_table", APut (lit "from_table"));
   (lit "table", ARead (lit "from_table"));
   (lit "row", ARead (lit "from_row.row"));
   (lit "set_row", APut (lit "from_row.row"));
   (lit "set_row_abs", APut (lit "from_row.row_abs"));
   (lit "row_abs", ARead (lit "from_row.row_abs"));
   (lit "set_to_table", APut (lit "to_table"));
   (lit "to_table", ARead (lit "to_table"));
   (lit "to_row", ARead (lit "to_row.row"));
   (lit "set_to_row", APut (lit "to_row.row"));
   (lit "set_to_row_abs", APut (lit "to_row.row_abs"));
   (lit "to_row_abs", ARead (lit "to_row.row_abs"));
   (lit "absolute", AFix [lit "from_row.row_abs"; lit "to_row.row_abs"])].
(** [CellSpan]: cell_.rs:57-60 set_row_span, 64-66 row_span, 71-74 set_col_span, 78-80 col_span. *)
Definition acc_CellSpan : list accessor := map (fun x => Acc (lit "CellSpan") (fst x) (snd x))
  [(lit "set_row_span", APutPos (lit "row_span"));
   (lit "row_span", ARead (lit "row_span"));
   (lit "set_col_span", APutPos (lit "col_span"));
   (lit "col_span", ARead (lit "col_span"))].
(** [CellContentRef]: cell_.rs:317-319 value, 323-325 formula, 329-331 style, 335-337 repeat, 341-343 validation, 347-349 row_span, 353-355 col_span,
    359-361 matrix_row_span, 365-367 matrix_col_span, 371-373 annotation, 377-379 draw_frames. *)
Definition acc_CellContentRef : list accessor := map (fun x => Acc (lit "CellContentRef") (fst x) (snd x))
  [(lit "value", ARead (lit "value"));
   (lit "formula", ARead (lit "formula"));
   (lit "style", ARead (lit "style"));
   (lit "repeat", ARead (lit "repeat"));
   (lit "validation", ARead (lit "validation_name"));
   (lit "row_span", ARead (lit "span.row_span"));
   (lit "col_span", ARead (lit "span.col_span"));
   (lit "matrix_row_span", ARead (lit "matrix_span.row_span"));
   (lit "matrix_col_span", ARead (lit "matrix_span.col_span"));
   (lit "annotation", ARead (lit "annotation"));
   (lit "draw_frames", ARead (lit "draw_frames"))].
(** [CellContent]: cell_.rs:462-464 value, 468-470 set_value, 474-476 formula, 480-482 set_formula, 486-488 clear_formula, 492-494 style, 498-500
    set_style, 504-506 clear_style, 511-514 set_repeat, 518-520 get_repeat, 524-526 validation, 530-532 set_validation, 536-538 clear_validation,
    543-546 set_row_span, 550-552 row_span, 557-560 set_col_span, 564-566 col_span, 571-574 set_matrix_row_span, 578-580 matrix_row_span, 585-588
    set_matrix_col_span, 592-594 matrix_col_span, 598-600 set_annotation, 604-606 clear_annotation, 610-612 annotation, 616-618 set_draw_frames,
    622-624 draw_frames. *)
Definition acc_CellContent : list accessor := map (fun x => Acc (lit "CellContent") (fst x) (snd x))
  [(lit "value", ARead (lit "value"));
   (lit "set_value", APut (lit "value"));
   (lit "formula", ARead (lit "formula"));
   (lit "set_formula", APut (lit "formula"));
   (lit "clear_formula", AEmpty (lit "formula"));
   (lit "style", ARead (lit "style"));
   (lit "set_style", APut (lit "style"));
   (lit "clear_style", AEmpty (lit "style"));
   (lit "set_repeat", APutPos (lit "repeat"));
   (lit "get_repeat", ARead (lit "repeat"));
   (lit "validation", ARead (lit "validation_name"));
   (lit "set_validation", APut (lit "validation_name"));
   (lit "clear_validation", AEmpty (lit "validation_name"));
   (lit "set_row_span", APutPos (lit "span.row_span"));
   (lit "row_span", ARead (lit "span.row_span"));
   (lit "set_col_span", APutPos (lit "span.col_span"));
   (lit "col_span", ARead (lit "span.col_span"));
   (lit "set_matrix_row_span", APutPos (lit "matrix_span.row_span"));
   (lit "matrix_row_span", ARead (lit "matrix_span.row_span"));
   (lit "set_matrix_col_span", APutPos (lit "matrix_span.col_span"));
   (lit "matrix_col_span", ARead (lit "matrix_span.col_span"));
   (lit "set_annotation", APut (lit "annotation"));
   (lit "clear_annotation", AEmpty (lit "annotation"));
   (lit "annotation", ARead (lit "annotation"));
   (lit "set_draw_frames", APut (lit "draw_frames"));
   (lit "draw_frames", ARead (lit "draw_frames"))].
(** [ValidationHelp]: validation.rs:85-87 set_display, 90-92 display, 95-97 set_title, 100-102 title, 105-111 set_text, 114-116 text. *)
Definition acc_ValidationHelp : list accessor := map (fun x => Acc (lit "ValidationHelp") (fst x) (snd x))
  [(lit "set_display", APut (lit "display"));
   (lit "display", ARead (lit "display"));
   (lit "set_title", APut (lit "title"));
   (lit "title", ARead (lit "title"));
   (lit "set_text", APut (lit "text"));
   (lit "text", ARead (lit "text"))].
(** [ValidationError]: validation.rs:169-171 set_display, 174-176 display, 179-181 set_msg_type, 184-186 msg_type, 189-191 set_title, 194-196 title,
    199-205 set_text, 208-210 text. *)
Definition acc_ValidationError : list accessor := map (fun x => Acc (lit "ValidationError") (fst x) (snd x))
  [(lit "set_display", APut (lit "display"));
   (lit "display", ARead (lit "display"));
   (lit "set_msg_type", APut (lit "msg_type"));
   (lit "msg_type", ARead (lit "msg_type"));
   (lit "set_title", APut (lit "title"));
   (lit "title", ARead (lit "title"));
   (lit "set_text", APut (lit "text"));
   (lit "text", ARead (lit "text"))].
(** [Validation]: validation.rs:250-252 set_name, 255-257 name, 260-262 validation_ref, 265-267 set_condition, 270-272 condition, 277-279
    set_base_cell, 282-284 base_cell, 287-289 set_allow_empty, 292-294 allow_empty, 297-299 set_display, 302-304 display, 307-309 set_err, 312-314
    err, 317-319 set_help, 322-324 help. *)
Definition acc_Validation : list accessor := map (fun x => Acc (lit "Validation") (fst x) (snd x))
  [(lit "set_name", APut (lit "name"));
   (lit "name", ARead (lit "name"));
   (lit "validation_ref", ARead (lit "name"));
   (lit "set_condition", APut (lit "condition"));
   (lit "condition", ARead (lit "condition"));
   (lit "set_base_cell", APut (lit "base_cell"));
   (lit "base_cell", ARead (lit "base_cell"));
   (lit "set_allow_empty", APut (lit "allow_empty"));
   (lit "allow_empty", ARead (lit "allow_empty"));
   (lit "set_display", APut (lit "display_list"));
   (lit "display", ARead (lit "display_list"));
   (lit "set_err", APut (lit "err"));
   (lit "err", ARead (lit "err"));
   (lit "set_help", APut (lit "help"));
   (lit "help", ARead (lit "help"))].
(** [Annotation]: draw.rs:68-70 attrmap, 73-75 attrmap_mut, 78-80 name, 83-85 set_name, 88-90 display, 93-95 set_display, 98-100 creator, 103-105
    set_creator, 108-110 date, 113-115 set_date, 118-120 text, 123-125 push_text, 133-135 set_text. *)
Definition acc_Annotation : list accessor := map (fun x => Acc (lit "Annotation") (fst x) (snd x))
  [(lit "attrmap", ARead (lit "attr"));
   (lit "attrmap_mut", ALend (lit "attr"));
   (lit "name", ARead (lit "name"));
   (lit "set_name", APut (lit "name"));
   (lit "display", ARead (lit "display"));
   (lit "set_display", APut (lit "display"));
   (lit "creator", ARead (lit "creator"));
   (lit "set_creator", APut (lit "creator"));
   (lit "date", ARead (lit "date"));
   (lit "set_date", APut (lit "date"));
   (lit "text", ARead (lit "text"));
   (lit "push_text", APush (lit "text"));
   (lit "set_text", APut (lit "text"))].
(** [DrawFrame]: draw.rs:254-256 attrmap, 259-261 attrmap_mut, 264-266 desc, 269-271 set_desc, 274-276 clear_desc, 279-281 title, 284-286 set_title,
    289-291 clear_title, 294-296 set_content, 299-301 push_content, 304-306 clear_content, 309-311 content_ref, 314-316 content_mut. *)
Definition acc_DrawFrame : list accessor := map (fun x => Acc (lit "DrawFrame") (fst x) (snd x))
  [(lit "attrmap", ARead (lit "attr"));
   (lit "attrmap_mut", ALend (lit "attr"));
   (lit "desc", ARead (lit "desc"));
   (lit "set_desc", APut (lit "desc"));
   (lit "clear_desc", AEmpty (lit "desc"));
   (lit "title", ARead (lit "title"));
   (lit "set_title", APut (lit "title"));
   (lit "clear_title", AEmpty (lit "title"));
   (lit "set_content", APut (lit "content"));
   (lit "push_content", APush (lit "content"));
   (lit "clear_content", AEmpty (lit "content"));
   (lit "content_ref", ARead (lit "content"));
   (lit "content_mut", ALend (lit "content"))].
(** [DrawImage]: draw.rs:364-366 attrmap, 369-371 attrmap_mut, 374-376 get_binary_base64, 379-381 set_binary_base64, 410-412 clear_binary, 415-417
    get_text, 420-422 push_text, 430-432 set_text. *)
Definition acc_DrawImage : list accessor := map (fun x => Acc (lit "DrawImage") (fst x) (snd x))
  [(lit "attrmap", ARead (lit "attr"));
   (lit "attrmap_mut", ALend (lit "attr"));
   (lit "get_binary_base64", ARead (lit "binary_data"));
   (lit "set_binary_base64", APut (lit "binary_data"));
   (lit "clear_binary", AEmpty (lit "binary_data"));
   (lit "get_text", ARead (lit "text"));
   (lit "push_text", APush (lit "text"));
   (lit "set_text", APut (lit "text"))].
(** [XmlTag]: xmltree.rs:105-107 set_name, 111-113 name, 123-125 attrmap, 129-131 attrmap_mut, 199-201 content, 205-207 content_mut. *)
Definition acc_XmlTag : list accessor := map (fun x => Acc (lit "XmlTag") (fst x) (snd x))
  [(lit "set_name", APut (lit "name"));
   (lit "name", ARead (lit "name"));
   (lit "attrmap", ARead (lit "attr"));
   (lit "attrmap_mut", ALend (lit "attr"));
   (lit "content", ARead (lit "content"));
   (lit "content_mut", ALend (lit "content"))].
(** [WorkBook]: workbook_.rs:351-353 version, 357-359 set_version, 362-364 config, 367-369 config_mut, 454-456 add_script, 464-466 scripts, 469-471
    scripts_mut, 1171-1173 metadata, 1176-1178 metadata_mut. *)
Definition acc_WorkBook : list accessor := map (fun x => Acc (lit "WorkBook") (fst x) (snd x))
  [(lit "version", ARead (lit "version"));
   (lit "set_version", APut (lit "version"));
   (lit "config", ARead (lit "workbook_config"));
   (lit "config_mut", ALend (lit "workbook_config"));
   (lit "add_script", APush (lit "scripts"));
   (lit "scripts", ARead (lit "scripts"));
   (lit "scripts_mut", ALend (lit "scripts"));
   (lit "metadata", ARead (lit "metadata"));
   (lit "metadata_mut", ALend (lit "metadata"))].
(** [Script]: workbook_.rs:1222-1224 script_lang, 1227-1229 set_script_lang, 1232-1234 script, 1237-1239 set_script. *)
Definition acc_Script : list accessor := map (fun x => Acc (lit "Script") (fst x) (snd x))
  [(lit "script_lang", ARead (lit "script_lang"));
   (lit "set_script_lang", APut (lit "script_lang"));
   (lit "script", ARead (lit "script"));
   (lit "set_script", APut (lit "script"))].
(** [EventListener]: workbook_.rs:1267-1269 event_name, 1272-1274 set_event_name, 1277-1279 script_lang, 1282-1284 set_script_lang, 1287-1289
    macro_name, 1292-1294 set_macro_name, 1297-1299 actuate, 1302-1304 set_actuate, 1307-1309 href, 1312-1314 set_href, 1317-1319 link_type, 1322-1324
    set_link_type. *)
Definition acc_EventListener : list accessor := map (fun x => Acc (lit "EventListener") (fst x) (snd x))
  [(lit "event_name", ARead (lit "event_name"));
   (lit "set_event_name", APut (lit "event_name"));
   (lit "script_lang", ARead (lit "script_lang"));
   (lit "set_script_lang", APut (lit "script_lang"));
   (lit "macro_name", ARead (lit "macro_name"));
   (lit "set_macro_name", APut (lit "macro_name"));
   (lit "actuate", ARead (lit "actuate"));
   (lit "set_actuate", APut (lit "actuate"));
   (lit "href", ARead (lit "href"));
   (lit "set_href", APut (lit "href"));
   (lit "link_type", ARead (lit "link_type"));
   (lit "set_link_type", APut (lit "link_type"))].
(** [Sheet]: sheet_.rs:622-624 set_name, 627-629 name, 632-634 config, 637-639 config_mut, 642-644 set_style, 647-649 style, 1004-1006 set_display,
    1009-1011 display, 1014-1016 set_print, 1019-1021 print, 1303-1308 set_header_rows, 1311-1313 clear_header_rows, 1317-1319 header_rows, 1323-1328
    set_header_cols, 1331-1333 clear_header_cols, 1337-1339 header_cols, 1342-1344 add_print_range, 1347-1349 clear_print_ranges, 1352-1354
    print_ranges. *)
Definition acc_Sheet : list accessor := map (fun x => Acc (lit "Sheet") (fst x) (snd x))
  [(lit "set_name", APut (lit "name"));
   (lit "name", ARead (lit "name"));
   (lit "config", ARead (lit "sheet_config"));
   (lit "config_mut", ALend (lit "sheet_config"));
   (lit "set_style", APut (lit "style"));
   (lit "style", ARead (lit "style"));
   (lit "set_display", APut (lit "display"));
   (lit "display", ARead (lit "display"));
   (lit "set_print", APut (lit "print"));
   (lit "print", ARead (lit "print"));
   (lit "set_header_rows", APut (lit "header_rows"));
   (lit "clear_header_rows", AEmpty (lit "header_rows"));
   (lit "header_rows", ARead (lit "header_rows"));
   (lit "set_header_cols", APut (lit "header_cols"));
   (lit "clear_header_cols", AEmpty (lit "header_cols"));
   (lit "header_cols", ARead (lit "header_cols"));
   (lit "add_print_range", APush (lit "print_ranges"));
   (lit "clear_print_ranges", AEmpty (lit "print_ranges"));
   (lit "print_ranges", ARead (lit "print_ranges"))].
(** [MasterPage]: style/masterpage.rs:91-93 masterpage_ref, 96-98 set_name, 101-103 name, 106-108 set_display_name, 111-113 display_name, 116-118
    set_pagestyle, 121-123 pagestyle, 129-131 set_next_masterpage, 134-136 next_masterpage, 139-141 set_header, 144-146 header, 149-151 header_mut,
    154-156 set_header_first, 159-161 header_first, 164-166 header_first_mut, 169-171 set_header_left, 174-176 header_left, 179-181 header_left_mut,
    184-186 set_footer, 189-191 footer, 194-196 footer_mut, 199-201 set_footer_first, 204-206 footer_first, 209-211 footer_first_mut, 214-216
    set_footer_left, 219-221 footer_left, 224-226 footer_left_mut. *)
Definition acc_MasterPage : list accessor := map (fun x => Acc (lit "MasterPage") (fst x) (snd x))
  [(lit "masterpage_ref", ARead (lit "name"));
   (lit "set_name", APut (lit "name"));
   (lit "name", ARead (lit "name"));
   (lit "set_display_name", APut (lit "display_name"));
   (lit "display_name", ARead (lit "display_name"));
   (lit "set_pagestyle", APut (lit "pagestyle"));
   (lit "pagestyle", ARead (lit "pagestyle"));
   (lit "set_next_masterpage", APut (lit "next_style_name"));
   (lit "next_masterpage", ARead (lit "next_style_name"));
   (lit "set_header", APut (lit "header"));
   (lit "header", ARead (lit "header"));
   (lit "header_mut", ALend (lit "header"));
   (lit "set_header_first", APut (lit "header_first"));
   (lit "header_first", ARead (lit "header_first"));
   (lit "header_first_mut", ALend (lit "header_first"));
   (lit "set_header_left", APut (lit "header_left"));
   (lit "header_left", ARead (lit "header_left"));
   (lit "header_left_mut", ALend (lit "header_left"));
   (lit "set_footer", APut (lit "footer"));
   (lit "footer", ARead (lit "footer"));
   (lit "footer_mut", ALend (lit "footer"));
   (lit "set_footer_first", APut (lit "footer_first"));
   (lit "footer_first", ARead (lit "footer_first"));
   (lit "footer_first_mut", ALend (lit "footer_first"));
   (lit "set_footer_left", APut (lit "footer_left"));
   (lit "footer_left", ARead (lit "footer_left"));
   (lit "footer_left_mut", ALend (lit "footer_left"))].
(** [HeaderFooter]: style/masterpage.rs:257-259 set_display, 262-264 display, 278-280 set_left, 286-288 add_left, 291-293 clear_left, 296-298 left,
    301-303 left_mut, 309-311 set_center, 317-319 add_center, 322-324 clear_center, 327-329 center, 332-334 center_mut, 340-342 set_right, 348-350
    add_right, 353-355 clear_right, 358-360 right, 363-365 right_mut, 368-370 set_content, 373-375 add_content, 378-380 content, 383-385 content_mut.
    *)
Definition acc_HeaderFooter : list accessor := map (fun x => Acc (lit "HeaderFooter") (fst x) (snd x))
  [(lit "set_display", APut (lit "display"));
   (lit "display", ARead (lit "display"));
   (lit "set_left", APut (lit "region_left"));
   (lit "add_left", APush (lit "region_left"));
   (lit "clear_left", AEmpty (lit "region_left"));
   (lit "left", ARead (lit "region_left"));
   (lit "left_mut", ALend (lit "region_left"));
   (lit "set_center", APut (lit "region_center"));
   (lit "add_center", APush (lit "region_center"));
   (lit "clear_center", AEmpty (lit "region_center"));
   (lit "center", ARead (lit "region_center"));
   (lit "center_mut", ALend (lit "region_center"));
   (lit "set_right", APut (lit "region_right"));
   (lit "add_right", APush (lit "region_right"));
   (lit "clear_right", AEmpty (lit "region_right"));
   (lit "right", ARead (lit "region_right"));
   (lit "right_mut", ALend (lit "region_right"));
   (lit "set_content", APut (lit "content"));
   (lit "add_content", APush (lit "content"));
   (lit "content", ARead (lit "content"));
   (lit "content_mut", ALend (lit "content"))].
(** [StyleMap]: style/stylemap.rs:48-50 condition, 53-55 set_condition, 58-60 applied_style, 63-65 set_applied_style, 68-70 base_cell, 73-75
    set_base_cell. *)
Definition acc_StyleMap : list accessor := map (fun x => Acc (lit "StyleMap") (fst x) (snd x))
  [(lit "condition", ARead (lit "condition"));
   (lit "set_condition", APut (lit "condition"));
   (lit "applied_style", ARead (lit "applied_style"));
   (lit "set_applied_style", APut (lit "applied_style"));
   (lit "base_cell", ARead (lit "base_cell"));
   (lit "set_base_cell", APut (lit "base_cell"))].
(** [PageStyle]: style/pagestyle.rs:58-60 style_ref, 63-65 name, 68-70 set_name, 83-85 set_page_usage, 88-90 clear_page_usage, 99-101 headerstyle,
    104-106 headerstyle_mut, 109-111 footerstyle, 114-116 footerstyle_mut, 119-121 style, 124-126 style_mut. *)
Definition acc_PageStyle : list accessor := map (fun x => Acc (lit "PageStyle") (fst x) (snd x))
  [(lit "style_ref", ARead (lit "name"));
   (lit "name", ARead (lit "name"));
   (lit "set_name", APut (lit "name"));
   (lit "set_page_usage", APut (lit "master_page_usage"));
   (lit "clear_page_usage", AEmpty (lit "master_page_usage"));
   (lit "headerstyle", ARead (lit "header"));
   (lit "headerstyle_mut", ALend (lit "header"));
   (lit "footerstyle", ARead (lit "footer"));
   (lit "footerstyle_mut", ALend (lit "footer"));
   (lit "style", ARead (lit "style"));
   (lit "style_mut", ALend (lit "style"))].
(** [HeaderFooterStyle]: style/pagestyle.rs:161-163 style, 166-168 style_mut. *)
Definition acc_HeaderFooterStyle : list accessor := map (fun x => Acc (lit "HeaderFooterStyle") (fst x) (snd x))
  [(lit "style", ARead (lit "style"));
   (lit "style_mut", ALend (lit "style"))].
(** [FontFaceDecl]: style/fontface.rs:63-65 set_name, 68-70 name, 73-75 set_origin, 78-80 origin, 83-85 attrmap, 88-90 attrmap_mut. *)
Definition acc_FontFaceDecl : list accessor := map (fun x => Acc (lit "FontFaceDecl") (fst x) (snd x))
  [(lit "set_name", APut (lit "name"));
   (lit "name", ARead (lit "name"));
   (lit "set_origin", APut (lit "origin"));
   (lit "origin", ARead (lit "origin"));
   (lit "attrmap", ARead (lit "attr"));
   (lit "attrmap_mut", ALend (lit "attr"))].
(** [TabStop]: style/tabstop.rs:31-33 attrmap, 36-38 attrmap_mut. *)
Definition acc_TabStop : list accessor := map (fun x => Acc (lit "TabStop") (fst x) (snd x))
  [(lit "attrmap", ARead (lit "attr"));
   (lit "attrmap_mut", ALend (lit "attr"))].
(** [TextStyle]: style/textstyle.rs:59-61 attrmap, 64-66 attrmap_mut, 69-71 textstyle, 74-76 textstyle_mut; macro_style.rs:5-7 origin, 10-12
    set_origin, 15-17 styleuse, 20-22 set_styleuse, 25-27 name, 30-32 set_name, 35-37 style_ref. *)
Definition acc_TextStyle : list accessor := map (fun x => Acc (lit "TextStyle") (fst x) (snd x))
  [(lit "attrmap", ARead (lit "attr"));
   (lit "attrmap_mut", ALend (lit "attr"));
   (lit "textstyle", ARead (lit "textstyle"));
   (lit "textstyle_mut", ALend (lit "textstyle"));
   (lit "origin", ARead (lit "origin"));
   (lit "set_origin", APut (lit "origin"));
   (lit "styleuse", ARead (lit "styleuse"));
   (lit "set_styleuse", APut (lit "styleuse"));
   (lit "name", ARead (lit "name"));
   (lit "set_name", APut (lit "name"));
   (lit "style_ref", ARead (lit "name"))].
(** [GraphicStyle]: style/graphicstyle.rs:72-74 attrmap, 77-79 attrmap_mut, 82-84 graphicstyle, 87-89 graphicstyle_mut, 92-94 paragraphstyle, 97-99
    paragraphstyle_mut, 102-104 textstyle, 107-109 textstyle_mut; macro_style.rs:5-7 origin, 10-12 set_origin, 15-17 styleuse, 20-22 set_styleuse,
    25-27 name, 30-32 set_name, 35-37 style_ref. *)
Definition acc_GraphicStyle : list accessor := map (fun x => Acc (lit "GraphicStyle") (fst x) (snd x))
  [(lit "attrmap", ARead (lit "attr"));
   (lit "attrmap_mut", ALend (lit "attr"));
   (lit "graphicstyle", ARead (lit "graphicstyle"));
   (lit "graphicstyle_mut", ALend (lit "graphicstyle"));
   (lit "paragraphstyle", ARead (lit "paragraphstyle"));
   (lit "paragraphstyle_mut", ALend (lit "paragraphstyle"));
   (lit "textstyle", ARead (lit "textstyle"));
   (lit "textstyle_mut", ALend (lit "textstyle"));
   (lit "origin", ARead (lit "origin"));
   (lit "set_origin", APut (lit "origin"));
   (lit "styleuse", ARead (lit "styleuse"));
   (lit "set_styleuse", APut (lit "styleuse"));
   (lit "name", ARead (lit "name"));
   (lit "set_name", APut (lit "name"));
   (lit "style_ref", ARead (lit "name"))].
(** [ColStyle]: style/colstyle.rs:58-60 attrmap, 63-65 attrmap_mut, 68-70 colstyle, 73-75 colstyle_mut; macro_style.rs:5-7 origin, 10-12 set_origin,
    15-17 styleuse, 20-22 set_styleuse, 25-27 name, 30-32 set_name, 35-37 style_ref. *)
Definition acc_ColStyle : list accessor := map (fun x => Acc (lit "ColStyle") (fst x) (snd x))
  [(lit "attrmap", ARead (lit "attr"));
   (lit "attrmap_mut", ALend (lit "attr"));
   (lit "colstyle", ARead (lit "colstyle"));
   (lit "colstyle_mut", ALend (lit "colstyle"));
   (lit "origin", ARead (lit "origin"));
   (lit "set_origin", APut (lit "origin"));
   (lit "styleuse", ARead (lit "styleuse"));
   (lit "set_styleuse", APut (lit "styleuse"));
   (lit "name", ARead (lit "name"));
   (lit "set_name", APut (lit "name"));
   (lit "style_ref", ARead (lit "name"))].
(** [RowStyle]: style/rowstyle.rs:58-60 attrmap, 63-65 attrmap_mut, 68-70 rowstyle, 73-75 rowstyle_mut; macro_style.rs:5-7 origin, 10-12 set_origin,
    15-17 styleuse, 20-22 set_styleuse, 25-27 name, 30-32 set_name, 35-37 style_ref. *)
Definition acc_RowStyle : list accessor := map (fun x => Acc (lit "RowStyle") (fst x) (snd x))
  [(lit "attrmap", ARead (lit "attr"));
   (lit "attrmap_mut", ALend (lit "attr"));
   (lit "rowstyle", ARead (lit "rowstyle"));
   (lit "rowstyle_mut", ALend (lit "rowstyle"));
   (lit "origin", ARead (lit "origin"));
   (lit "set_origin", APut (lit "origin"));
   (lit "styleuse", ARead (lit "styleuse"));
   (lit "set_styleuse", APut (lit "styleuse"));
   (lit "name", ARead (lit "name"));
   (lit "set_name", APut (lit "name"));
   (lit "style_ref", ARead (lit "name"))].
(** [ParagraphStyle]: style/paragraphstyle.rs:77-79 attrmap, 82-84 attrmap_mut, 87-89 paragraphstyle, 92-94 paragraphstyle_mut, 97-99 textstyle,
    102-104 textstyle_mut, 111-114 add_tabstop, 117-119 tabstops; macro_style.rs:5-7 origin, 10-12 set_origin, 15-17 styleuse, 20-22 set_styleuse,
    25-27 name, 30-32 set_name, 35-37 style_ref. *)
Definition acc_ParagraphStyle : list accessor := map (fun x => Acc (lit "ParagraphStyle") (fst x) (snd x))
  [(lit "attrmap", ARead (lit "attr"));
   (lit "attrmap_mut", ALend (lit "attr"));
   (lit "paragraphstyle", ARead (lit "paragraphstyle"));
   (lit "paragraphstyle_mut", ALend (lit "paragraphstyle"));
   (lit "textstyle", ARead (lit "textstyle"));
   (lit "textstyle_mut", ALend (lit "textstyle"));
   (lit "add_tabstop", APush (lit "tabstops"));
   (lit "tabstops", ARead (lit "tabstops"));
   (lit "origin", ARead (lit "origin"));
   (lit "set_origin", APut (lit "origin"));
   (lit "styleuse", ARead (lit "styleuse"));
   (lit "set_styleuse", APut (lit "styleuse"));
   (lit "name", ARead (lit "name"));
   (lit "set_name", APut (lit "name"));
   (lit "style_ref", ARead (lit "name"))].
(** [CellStyle]: style/cellstyle.rs:116-118 attrmap, 121-123 attrmap_mut, 126-128 cellstyle, 131-133 cellstyle_mut, 136-138 paragraphstyle, 141-143
    paragraphstyle_mut, 146-148 textstyle, 151-153 textstyle_mut, 156-158 push_stylemap, 161-163 stylemaps, 166-168 stylemaps_mut; macro_style.rs:5-7
    origin, 10-12 set_origin, 15-17 styleuse, 20-22 set_styleuse, 25-27 name, 30-32 set_name, 35-37 style_ref. *)
Definition acc_CellStyle : list accessor := map (fun x => Acc (lit "CellStyle") (fst x) (snd x))
  [(lit "attrmap", ARead (lit "attr"));
   (lit "attrmap_mut", ALend (lit "attr"));
   (lit "cellstyle", ARead (lit "cellstyle"));
   (lit "cellstyle_mut", ALend (lit "cellstyle"));
   (lit "paragraphstyle", ARead (lit "paragraphstyle"));
   (lit "paragraphstyle_mut", ALend (lit "paragraphstyle"));
   (lit "textstyle", ARead (lit "textstyle"));
   (lit "textstyle_mut", ALend (lit "textstyle"));
   (lit "push_stylemap", APush (lit "stylemaps"));
   (lit "stylemaps", ARead (lit "stylemaps"));
   (lit "stylemaps_mut", ALend (lit "stylemaps"));
   (lit "origin", ARead (lit "origin"));
   (lit "set_origin", APut (lit "origin"));
   (lit "styleuse", ARead (lit "styleuse"));
   (lit "set_styleuse", APut (lit "styleuse"));
   (lit "name", ARead (lit "name"));
   (lit "set_name", APut (lit "name"));
   (lit "style_ref", ARead (lit "name"))].
(** [TableStyle]: style/tablestyle.rs:58-60 attrmap, 63-65 attrmap_mut, 68-70 tablestyle, 73-75 tablestyle_mut; macro_style.rs:5-7 origin, 10-12
    set_origin, 15-17 styleuse, 20-22 set_styleuse, 25-27 name, 30-32 set_name, 35-37 style_ref. *)
Definition acc_TableStyle : list accessor := map (fun x => Acc (lit "TableStyle") (fst x) (snd x))
  [(lit "attrmap", ARead (lit "attr"));
   (lit "attrmap_mut", ALend (lit "attr"));
   (lit "tablestyle", ARead (lit "tablestyle"));
   (lit "tablestyle_mut", ALend (lit "tablestyle"));
   (lit "origin", ARead (lit "origin"));
   (lit "set_origin", APut (lit "origin"));
   (lit "styleuse", ARead (lit "styleuse"));
   (lit "set_styleuse", APut (lit "styleuse"));
   (lit "name", ARead (lit "name"));
   (lit "set_name", APut (lit "name"));
   (lit "style_ref", ARead (lit "name"))].
(** [RubyStyle]: style/ruby.rs:52-54 attrmap, 57-59 attrmap_mut, 62-64 rubystyle, 67-69 rubystyle_mut; macro_style.rs:5-7 origin, 10-12 set_origin,
    15-17 styleuse, 20-22 set_styleuse, 25-27 name, 30-32 set_name, 35-37 style_ref. *)
Definition acc_RubyStyle : list accessor := map (fun x => Acc (lit "RubyStyle") (fst x) (snd x))
  [(lit "attrmap", ARead (lit "attr"));
   (lit "attrmap_mut", ALend (lit "attr"));
   (lit "rubystyle", ARead (lit "rubystyle"));
   (lit "rubystyle_mut", ALend (lit "rubystyle"));
   (lit "origin", ARead (lit "origin"));
   (lit "set_origin", APut (lit "origin"));
   (lit "styleuse", ARead (lit "styleuse"));
   (lit "set_styleuse", APut (lit "styleuse"));
   (lit "name", ARead (lit "name"));
   (lit "set_name", APut (lit "name"));
   (lit "style_ref", ARead (lit "name"))].
(** [FormatPart]: format/mod.rs:354-356 set_part_type, 359-361 part_type, 364-366 attrmap, 369-371 attrmap_mut, 387-389 set_position, 392-394
    clear_position, 397-399 position, 403-405 set_content, 421-423 clear_content, 426-428 content. *)
Definition acc_FormatPart : list accessor := map (fun x => Acc (lit "FormatPart") (fst x) (snd x))
  [(lit "set_part_type", APut (lit "part_type"));
   (lit "part_type", ARead (lit "part_type"));
   (lit "attrmap", ARead (lit "attr"));
   (lit "attrmap_mut", ALend (lit "attr"));
   (lit "set_position", APut (lit "position"));
   (lit "clear_position", AEmpty (lit "position"));
   (lit "position", ARead (lit "position"));
   (lit "set_content", APut (lit "content"));
   (lit "clear_content", AEmpty (lit "content"));
   (lit "content", ARead (lit "content"))].
(** [ValueStyleMap]: format/stylemap.rs:26-28 condition, 31-33 set_condition, 36-38 applied_style, 41-43 set_applied_style. *)
Definition acc_ValueStyleMap : list accessor := map (fun x => Acc (lit "ValueStyleMap") (fst x) (snd x))
  [(lit "condition", ARead (lit "condition"));
   (lit "set_condition", APut (lit "condition"));
   (lit "applied_style", ARead (lit "applied_style"));
   (lit "set_applied_style", APut (lit "applied_style"))].
(** [ValueFormat]: macro_format.rs:134-136 set_name, 139-141 name, 150-152 set_origin, 155-157 origin, 160-162 set_styleuse, 165-167 styleuse, 170-172
    attrmap, 175-177 attrmap_mut, 180-182 textstyle, 185-187 textstyle_mut, 190-192 push_part, 200-202 parts, 205-207 parts_mut, 210-212
    push_stylemap, 215-217 stylemaps, 220-222 stylemaps_mut, 129-131 format_ref. *)
Definition acc_ValueFormat : list accessor := map (fun x => Acc (lit "ValueFormat") (fst x) (snd x))
  [(lit "set_name", APut (lit "name"));
   (lit "name", ARead (lit "name"));
   (lit "set_origin", APut (lit "origin"));
   (lit "origin", ARead (lit "origin"));
   (lit "set_styleuse", APut (lit "styleuse"));
   (lit "styleuse", ARead (lit "styleuse"));
   (lit "attrmap", ARead (lit "attr"));
   (lit "attrmap_mut", ALend (lit "attr"));
   (lit "textstyle", ARead (lit "textstyle"));
   (lit "textstyle_mut", ALend (lit "textstyle"));
   (lit "push_part", APush (lit "parts"));
   (lit "parts", ARead (lit "parts"));
   (lit "parts_mut", ALend (lit "parts"));
   (lit "push_stylemap", APush (lit "stylemaps"));
   (lit "stylemaps", ARead (lit "stylemaps"));
   (lit "stylemaps_mut", ALend (lit "stylemaps"));
   (lit "format_ref", ARead (lit "name"))].
Definition accessors : list accessor := acc_CRow ++ acc_CCol ++ acc_CellRef ++ acc_CellRange ++ acc_ColRange ++ acc_RowRange ++ acc_CellSpan ++ acc_CellContentRef ++ acc_CellContent ++ acc_ValidationHelp ++ acc_ValidationError ++ acc_Validation ++ acc_Annotation ++ acc_DrawFrame ++ acc_DrawImage ++ acc_XmlTag ++ acc_WorkBook ++ acc_Script ++ acc_EventListener ++ acc_Sheet ++ acc_MasterPage ++ acc_HeaderFooter ++ acc_StyleMap ++ acc_PageStyle ++ acc_HeaderFooterStyle ++ acc_FontFaceDecl ++ acc_TabStop ++ acc_TextStyle ++ acc_GraphicStyle ++ acc_ColStyle ++ acc_RowStyle ++ acc_ParagraphStyle ++ acc_CellStyle ++ acc_TableStyle ++ acc_RubyStyle ++ acc_FormatPart ++ acc_ValueStyleMap ++ acc_ValueFormat.

(** ** Registries *)

(** The maps of a workbook from names to values. *)
Definition registries (A : Type) : Type := str -> str -> option A.
Definition rupd {A} (p k : str) (x : option A) (o : registries A) : registries A := fun q l => if str_eqb q p && str_eqb l k then x else o q l.
Inductive raction := RInsert (p : str) | RDelete (p : str) | RLookup (p : str) | RLookupMut (p : str) | RAll (p : str).
Record raccessor := RAcc { ra_name : str; ra_act : raction }.
(** The key is the name of the value for those that insert, the argument for the others. Inserting under a name that is there and making up a name
    are modelled with C32. *)
Definition rcall {A} (a : raction) (k : str) (x : A) (o : registries A) : registries A :=
  match a with RInsert p => rupd p k (Some x) o | RDelete p => rupd p k None o | _ => o end.
(** [iter_]: which values are there is said by which names have one. *)
Definition rreturns {A} (a : raction) (k : str) (o : registries A) : option A := match a with RDelete p | RLookup p | RLookupMut p | RAll p => o p k | RInsert _ => None end.
Definition rthrough {A} (a : raction) (f : A -> A) (k : str) (o : registries A) : registries A := match a with RLookupMut p => rupd p k (option_map f (o p k)) o | _ => o end.
(** [WorkBook]: workbook_.rs:474-476 add_event_listener, 479-481 remove_event_listener, 484-486 iter_event_listeners, 489-491 event_listener, 494-496
    event_listener_mut, 500-502 add_def_style, 505-507 def_style, 510-512 add_font, 515-517 remove_font, 520-522 iter_fonts, 525-527 font, 530-532
    font_mut, 536-543 add_tablestyle, 546-548 remove_tablestyle, 551-553 iter_table_styles, 556-558 tablestyle, 561-563 tablestyle_mut, 567-574
    add_rowstyle, 577-579 remove_rowstyle, 582-584 rowstyle, 587-589 rowstyle_mut, 592-594 iter_rowstyles, 598-605 add_colstyle, 608-610
    remove_colstyle, 613-615 colstyle, 618-620 colstyle_mut, 623-625 iter_colstyles, 629-636 add_cellstyle, 639-641 remove_cellstyle, 644-646
    iter_cellstyles, 649-651 cellstyle, 654-656 cellstyle_mut, 660-671 add_paragraphstyle, 674-676 remove_paragraphstyle, 679-681
    iter_paragraphstyles, 684-686 paragraphstyle, 689-691 paragraphstyle_mut, 695-702 add_textstyle, 705-707 remove_textstyle, 710-712
    iter_textstyles, 715-717 textstyle, 720-722 textstyle_mut, 726-737 add_rubystyle, 740-742 remove_rubystyle, 745-747 iter_rubystyles, 750-752
    rubystyle, 755-757 rubystyle_mut, 761-772 add_graphicstyle, 775-777 remove_graphicstyle, 780-782 iter_graphicstyles, 785-787 graphicstyle, 790-792
    graphicstyle_mut, 796-806 add_boolean_format, 809-811 remove_boolean_format, 814-816 iter_boolean_formats, 819-821 boolean_format, 824-826
    boolean_format_mut, 830-840 add_number_format, 843-845 remove_number_format, 848-850 iter_number_formats, 853-855 number_format, 858-860
    number_format_mut, 864-879 add_percentage_format, 882-884 remove_percentage_format, 887-889 iter_percentage_formats, 892-894 percentage_format,
    897-899 percentage_format_mut, 903-913 add_currency_format, 916-918 remove_currency_format, 921-923 iter_currency_formats, 926-928
    currency_format, 931-933 currency_format_mut, 937-946 add_text_format, 949-951 remove_text_format, 954-956 iter_text_formats, 959-961 text_format,
    964-966 text_format_mut, 970-980 add_datetime_format, 983-985 remove_datetime_format, 988-990 iter_datetime_formats, 993-995 datetime_format,
    998-1000 datetime_format_mut, 1004-1022 add_timeduration_format, 1025-1027 remove_timeduration_format, 1030-1032 iter_timeduration_formats,
    1035-1037 timeduration_format, 1040-1042 timeduration_format_mut, 1046-1057 add_pagestyle, 1060-1062 remove_pagestyle, 1065-1067 iter_pagestyles,
    1070-1072 pagestyle, 1075-1077 pagestyle_mut, 1081-1088 add_masterpage, 1091-1093 remove_masterpage, 1096-1098 iter_masterpages, 1101-1103
    masterpage, 1106-1108 masterpage_mut, 1112-1123 add_validation, 1126-1128 remove_validation, 1131-1133 iter_validations, 1136-1138 validation,
    1141-1143 validation_mut, 1146-1148 add_manifest, 1151-1153 remove_manifest, 1156-1158 iter_manifest, 1161-1163 manifest, 1166-1168 manifest_mut.
    *)
Definition raccessors : list raccessor := map (fun x => RAcc (fst x) (snd x))
  [(lit "add_event_listener", RInsert (lit "event_listener"));
   (lit "remove_event_listener", RDelete (lit "event_listener"));
   (lit "iter_event_listeners", RAll (lit "event_listener"));
   (lit "event_listener", RLookup (lit "event_listener"));
   (lit "event_listener_mut", RLookupMut (lit "event_listener"));
   (lit "add_def_style", RInsert (lit "def_styles"));
   (lit "def_style", RLookup (lit "def_styles"));
   (lit "add_font", RInsert (lit "fonts"));
   (lit "remove_font", RDelete (lit "fonts"));
   (lit "iter_fonts", RAll (lit "fonts"));
   (lit "font", RLookup (lit "fonts"));
   (lit "font_mut", RLookupMut (lit "fonts"));
   (lit "add_tablestyle", RInsert (lit "tablestyles"));
   (lit "remove_tablestyle", RDelete (lit "tablestyles"));
   (lit "iter_table_styles", RAll (lit "tablestyles"));
   (lit "tablestyle", RLookup (lit "tablestyles"));
   (lit "tablestyle_mut", RLookupMut (lit "tablestyles"));
   (lit "add_rowstyle", RInsert (lit "rowstyles"));
   (lit "remove_rowstyle", RDelete (lit "rowstyles"));
   (lit "rowstyle", RLookup (lit "rowstyles"));
   (lit "rowstyle_mut", RLookupMut (lit "rowstyles"));
   (lit "iter_rowstyles", RAll (lit "rowstyles"));
   (lit "add_colstyle", RInsert (lit "colstyles"));
   (lit "remove_colstyle", RDelete (lit "colstyles"));
   (lit "colstyle", RLookup (lit "colstyles"));
   (lit "colstyle_mut", RLookupMut (lit "colstyles"));
   (lit "iter_colstyles", RAll (lit "colstyles"));
   (lit "add_cellstyle", RInsert (lit "cellstyles"));
   (lit "remove_cellstyle", RDelete (lit "cellstyles"));
   (lit "iter_cellstyles", RAll (lit "cellstyles"));
   (lit "cellstyle", RLookup (lit "cellstyles"));
   (lit "cellstyle_mut", RLookupMut (lit "cellstyles"));
   (lit "add_paragraphstyle", RInsert (lit "paragraphstyles"));
   (lit "remove_paragraphstyle", RDelete (lit "paragraphstyles"));
   (lit "iter_paragraphstyles", RAll (lit "paragraphstyles"));
   (lit "paragraphstyle", RLookup (lit "paragraphstyles"));
   (lit "paragraphstyle_mut", RLookupMut (lit "paragraphstyles"));
   (lit "add_textstyle", RInsert (lit "textstyles"));
   (lit "remove_textstyle", RDelete (lit "textstyles"));
   (lit "iter_textstyles", RAll (lit "textstyles"));
   (lit "textstyle", RLookup (lit "textstyles"));
   (lit "textstyle_mut", RLookupMut (lit "textstyles"));
   (lit "add_rubystyle", RInsert (lit "rubystyles"));
   (lit "remove_rubystyle", RDelete (lit "rubystyles"));
   (lit "iter_rubystyles", RAll (lit "rubystyles"));
   (lit "rubystyle", RLookup (lit "rubystyles"));
   (lit "rubystyle_mut", RLookupMut (lit "rubystyles"));
   (lit "add_graphicstyle", RInsert (lit "graphicstyles"));
   (lit "remove_graphicstyle", RDelete (lit "graphicstyles"));
   (lit "iter_graphicstyles", RAll (lit "graphicstyles"));
   (lit "graphicstyle", RLookup (lit "graphicstyles"));
   (lit "graphicstyle_mut", RLookupMut (lit "graphicstyles"));
   (lit "add_boolean_format", RInsert (lit "formats_boolean"));
   (lit "remove_boolean_format", RDelete (lit "formats_boolean"));
   (lit "iter_boolean_formats", RAll (lit "formats_boolean"));
   (lit "boolean_format", RLookup (lit "formats_boolean"));
   (lit "boolean_format_mut", RLookupMut (lit "formats_boolean"));
   (lit "add_number_format", RInsert (lit "formats_number"));
   (lit "remove_number_format", RDelete (lit "formats_number"));
   (lit "iter_number_formats", RAll (lit "formats_number"));
   (lit "number_format", RLookup (lit "formats_number"));
   (lit "number_format_mut", RLookupMut (lit "formats_number"));
   (lit "add_percentage_format", RInsert (lit "formats_percentage"));
   (lit "remove_percentage_format", RDelete (lit "formats_percentage"));
   (lit "iter_percentage_formats", RAll (lit "formats_percentage"));
   (lit "percentage_format", RLookup (lit "formats_percentage"));
   (lit "percentage_format_mut", RLookupMut (lit "formats_percentage"));
   (lit "add_currency_format", RInsert (lit "formats_currency"));
   (lit "remove_currency_format", RDelete (lit "formats_currency"));
   (lit "iter_currency_formats", RAll (lit "formats_currency"));
   (lit "currency_format", RLookup (lit "formats_currency"));
   (lit "currency_format_mut", RLookupMut (lit "formats_currency"));
   (lit "add_text_format", RInsert (lit "formats_text"));
   (lit "remove_text_format", RDelete (lit "formats_text"));
   (lit "iter_text_formats", RAll (lit "formats_text"));
   (lit "text_format", RLookup (lit "formats_text"));
   (lit "text_format_mut", RLookupMut (lit "formats_text"));
   (lit "add_datetime_format", RInsert (lit "formats_datetime"));
   (lit "remove_datetime_format", RDelete (lit "formats_datetime"));
   (lit "iter_datetime_formats", RAll (lit "formats_datetime"));
   (lit "datetime_format", RLookup (lit "formats_datetime"));
   (lit "datetime_format_mut", RLookupMut (lit "formats_datetime"));
   (lit "add_timeduration_format", RInsert (lit "formats_timeduration"));
   (lit "remove_timeduration_format", RDelete (lit "formats_timeduration"));
   (lit "iter_timeduration_formats", RAll (lit "formats_timeduration"));
   (lit "timeduration_format", RLookup (lit "formats_timeduration"));
   (lit "timeduration_format_mut", RLookupMut (lit "formats_timeduration"));
   (lit "add_pagestyle", RInsert (lit "pagestyles"));
   (lit "remove_pagestyle", RDelete (lit "pagestyles"));
   (lit "iter_pagestyles", RAll (lit "pagestyles"));
   (lit "pagestyle", RLookup (lit "pagestyles"));
   (lit "pagestyle_mut", RLookupMut (lit "pagestyles"));
   (lit "add_masterpage", RInsert (lit "masterpages"));
   (lit "remove_masterpage", RDelete (lit "masterpages"));
   (lit "iter_masterpages", RAll (lit "masterpages"));
   (lit "masterpage", RLookup (lit "masterpages"));
   (lit "masterpage_mut", RLookupMut (lit "masterpages"));
   (lit "add_validation", RInsert (lit "validations"));
   (lit "remove_validation", RDelete (lit "validations"));
   (lit "iter_validations", RAll (lit "validations"));
   (lit "validation", RLookup (lit "validations"));
   (lit "validation_mut", RLookupMut (lit "validations"));
   (lit "add_manifest", RInsert (lit "manifest"));
   (lit "remove_manifest", RDelete (lit "manifest"));
   (lit "iter_manifest", RAll (lit "manifest"));
   (lit "manifest", RLookup (lit "manifest"));
   (lit "manifest_mut", RLookupMut (lit "manifest"))].

(** ** Constructors *)

(** A field holds a parameter or a constant, given by its text in the source. *)
Inductive source := SParam (n : str) | SConst (t : str).
Record maker := Mk { mk_type : str; mk_name : str; mk_params : list str; mk_fields : list (str * source) }.
Definition make {A} (args : str -> list A) (meaning : str -> list A) (m : maker) : object A :=
  fun p => match find (fun f => str_eqb (fst f) p) (mk_fields m) with
           | Some (_, SParam n) => args n | Some (_, SConst t) => meaning t | None => []
           end.
(** Left out are the assertions on the order of rows and columns, [CellRange::origin_span] which computes, and those that call setters. *)
(** refs.rs:31-36 CRow::new, 89-94 CCol::new, 157-171 CellRef::new_all, 179-192 CellRef::local, 195-208 CellRef::remote, 344-378 CellRange::new_all,
    390-414 CellRange::local, 421-445 CellRange::remote, 668-690 ColRange::new_all, 697-712 ColRange::new, 839-861 RowRange::new_all, 864-879
    RowRange::new; validation.rs:76-82 ValidationHelp::new, 159-166 ValidationError::new, 232-247 Validation::new; draw.rs:42-51
    Annotation::new_empty; xmltree.rs:95-101 XmlTag::new; workbook_.rs:1214-1219 Script::new, 1255-1264 EventListener::new; sheet_.rs:540-557
    Sheet::new; style/masterpage.rs:59-72 MasterPage::new_empty, 75-88 MasterPage::new, 246-254 HeaderFooter::new; style/stylemap.rs:24-30
    StyleMap::new_empty, 35-45 StyleMap::new; style/pagestyle.rs:36-44 PageStyle::new_empty, 47-55 PageStyle::new; style/fontface.rs:39-45
    FontFaceDecl::new_empty, 48-54 FontFaceDecl::new; style/tabstop.rs:24-28 TabStop::new; style/textstyle.rs:37-45 TextStyle::new_empty, 48-56
    TextStyle::new; style/graphicstyle.rs:46-56 GraphicStyle::new_empty, 59-69 GraphicStyle::new; style/colstyle.rs:36-44 ColStyle::new_empty, 47-55
    ColStyle::new; style/rowstyle.rs:36-44 RowStyle::new_empty, 47-55 RowStyle::new; style/paragraphstyle.rs:51-61 ParagraphStyle::new_empty, 64-74
    ParagraphStyle::new; style/cellstyle.rs:74-85 CellStyle::new_empty; style/tablestyle.rs:34-42 TableStyle::new_empty, 45-53 TableStyle::new;
    style/ruby.rs:30-38 RubyStyle::new_empty, 41-49 RubyStyle::new; format/mod.rs:344-351 FormatPart::new; format/stylemap.rs:18-23
    ValueStyleMap::new; macro_format.rs:25-35 ValueFormat::new_empty, 44-54 ValueFormat::new_named. *)
Definition makers : list maker :=
  [Mk (lit "CRow") (lit "new") [lit "row"]
      [(lit "row_abs", SConst (lit "false")); (lit "row", SParam (lit "row"))];
   Mk (lit "CCol") (lit "new") [lit "col"]
      [(lit "col_abs", SConst (lit "false")); (lit "col", SParam (lit "col"))];
   Mk (lit "CellRef") (lit "new_all") [lit "iri"; lit "table"; lit "row_abs"; lit "row"; lit "col_abs"; lit "col"]
      [(lit "iri", SParam (lit "iri")); (lit "table", SParam (lit "table")); (lit "row.row_abs", SParam (lit "row_abs")); (lit "row.row", SParam (lit "row")); (lit "col.col_abs", SParam (lit "col_abs")); (lit "col.col", SParam (lit "col"))];
   Mk (lit "CellRef") (lit "local") [lit "row"; lit "col"]
      [(lit "iri", SConst (lit "None")); (lit "table", SConst (lit "None")); (lit "row.row_abs", SConst (lit "false")); (lit "row.row", SParam (lit "row")); (lit "col.col_abs", SConst (lit "false")); (lit "col.col", SParam (lit "col"))];
   Mk (lit "CellRef") (lit "remote") [lit "table"; lit "row"; lit "col"]
      [(lit "iri", SConst (lit "None")); (lit "table", SParam (lit "table")); (lit "row.row_abs", SConst (lit "false")); (lit "row.row", SParam (lit "row")); (lit "col.col_abs", SConst (lit "false")); (lit "col.col", SParam (lit "col"))];
   Mk (lit "CellRange") (lit "new_all") [lit "iri"; lit "from_table"; lit "from_row_abs"; lit "from_row"; lit "from_col_abs"; lit "from_col"; lit "to_table"; lit "to_row_abs"; lit "to_row"; lit "to_col_abs"; lit "to_col"]
      [(lit "iri", SParam (lit "iri")); (lit "from_table", SParam (lit "from_table")); (lit "from_row.row_abs", SParam (lit "from_row_abs")); (lit "from_row.row", SParam (lit "from_row")); (lit "from_col.col_abs", SParam (lit "from_col_abs")); (lit "from_col.col", SParam (lit "from_col")); (lit "to_table", SParam (lit "to_table")); (lit "to_row.row_abs", SParam (lit "to_row_abs")); (lit "to_row.row", SParam (lit "to_row")); (lit "to_col.col_abs", SParam (lit "to_col_abs")); (lit "to_col.col", SParam (lit "to_col"))];
   Mk (lit "CellRange") (lit "local") [lit "row"; lit "col"; lit "to_row"; lit "to_col"]
      [(lit "iri", SConst (lit "None")); (lit "from_table", SConst (lit "None")); (lit "from_row.row_abs", SConst (lit "false")); (lit "from_row.row", SParam (lit "row")); (lit "from_col.col_abs", SConst (lit "false")); (lit "from_col.col", SParam (lit "col")); (lit "to_table", SConst (lit "None")); (lit "to_row.row_abs", SConst (lit "false")); (lit "to_row.row", SParam (lit "to_row")); (lit "to_col.col_abs", SConst (lit "false")); (lit "to_col.col", SParam (lit "to_col"))];
   Mk (lit "CellRange") (lit "remote") [lit "table"; lit "row"; lit "col"; lit "to_row"; lit "to_col"]
      [(lit "iri", SConst (lit "None")); (lit "from_table", SParam (lit "table")); (lit "from_row.row_abs", SConst (lit "false")); (lit "from_row.row", SParam (lit "row")); (lit "from_col.col_abs", SConst (lit "false")); (lit "from_col.col", SParam (lit "col")); (lit "to_table", SConst (lit "None")); (lit "to_row.row_abs", SConst (lit "false")); (lit "to_row.row", SParam (lit "to_row")); (lit "to_col.col_abs", SConst (lit "false")); (lit "to_col.col", SParam (lit "to_col"))];
   Mk (lit "ColRange") (lit "new_all") [lit "iri"; lit "from_table"; lit "from_col_abs"; lit "from_col"; lit "to_table"; lit "to_col_abs"; lit "to_col"]
      [(lit "iri", SParam (lit "iri")); (lit "from_table", SParam (lit "from_table")); (lit "from_col.col_abs", SParam (lit "from_col_abs")); (lit "from_col.col", SParam (lit "from_col")); (lit "to_table", SParam (lit "to_table")); (lit "to_col.col_abs", SParam (lit "to_col_abs")); (lit "to_col.col", SParam (lit "to_col"))];
   Mk (lit "ColRange") (lit "new") [lit "from_col"; lit "to_col"]
      [(lit "iri", SConst (lit "None")); (lit "from_table", SConst (lit "None")); (lit "from_col.col_abs", SConst (lit "false")); (lit "from_col.col", SParam (lit "from_col")); (lit "to_table", SConst (lit "None")); (lit "to_col.col_abs", SConst (lit "false")); (lit "to_col.col", SParam (lit "to_col"))];
   Mk (lit "RowRange") (lit "new_all") [lit "iri"; lit "from_table"; lit "from_row_abs"; lit "from_row"; lit "to_table"; lit "to_row_abs"; lit "to_row"]
      [(lit "iri", SParam (lit "iri")); (lit "from_table", SParam (lit "from_table")); (lit "from_row.row_abs", SParam (lit "from_row_abs")); (lit "from_row.row", SParam (lit "from_row")); (lit "to_table", SParam (lit "to_table")); (lit "to_row.row_abs", SParam (lit "to_row_abs")); (lit "to_row.row", SParam (lit "to_row"))];
   Mk (lit "RowRange") (lit "new") [lit "from_row"; lit "to_row"]
      [(lit "iri", SConst (lit "None")); (lit "from_table", SConst (lit "None")); (lit "from_row.row_abs", SConst (lit "false")); (lit "from_row.row", SParam (lit "from_row")); (lit "to_table", SConst (lit "None")); (lit "to_row.row_abs", SConst (lit "false")); (lit "to_row.row", SParam (lit "to_row"))];
   Mk (lit "ValidationHelp") (lit "new") []
      [(lit "display", SConst (lit "true")); (lit "title", SConst (lit "None")); (lit "text", SConst (lit "None"))];
   Mk (lit "ValidationError") (lit "new") []
      [(lit "display", SConst (lit "true")); (lit "msg_type", SConst (lit "MessageType::Error")); (lit "title", SConst (lit "None")); (lit "text", SConst (lit "None"))];
   Mk (lit "Validation") (lit "new") []
      [(lit "name", SConst (lit "Default::default()")); (lit "condition", SConst (lit "Default::default()")); (lit "base_cell", SConst (lit "Default::default()")); (lit "allow_empty", SConst (lit "true")); (lit "display_list", SConst (lit "Default::default()")); (lit "err", SConst (lit "Some(ValidationError { display: true, msg_type: MessageType::Error, title: None, text: None, })")); (lit "help", SConst (lit "None"))];
   Mk (lit "Annotation") (lit "new_empty") []
      [(lit "name", SConst (lit "Default::default()")); (lit "display", SConst (lit "false")); (lit "creator", SConst (lit "None")); (lit "date", SConst (lit "None")); (lit "text", SConst (lit "Default::default()")); (lit "attr", SConst (lit "Default::default()"))];
   Mk (lit "XmlTag") (lit "new") [lit "name"]
      [(lit "name", SParam (lit "name")); (lit "attr", SConst (lit "Default::default()")); (lit "content", SConst (lit "vec![]"))];
   Mk (lit "Script") (lit "new") []
      [(lit "script_lang", SConst (lit """"".to_string()")); (lit "script", SConst (lit "Default::default()"))];
   Mk (lit "EventListener") (lit "new") []
      [(lit "event_name", SConst (lit "Default::default()")); (lit "script_lang", SConst (lit "Default::default()")); (lit "macro_name", SConst (lit "Default::default()")); (lit "actuate", SConst (lit "XLinkActuate::OnLoad")); (lit "href", SConst (lit "Default::default()")); (lit "link_type", SConst (lit "Default::default()"))];
   Mk (lit "Sheet") (lit "new") [lit "name"]
      [(lit "name", SParam (lit "name")); (lit "data", SConst (lit "BTreeMap::new()")); (lit "col_header", SConst (lit "Default::default()")); (lit "style", SConst (lit "None")); (lit "header_rows", SConst (lit "None")); (lit "header_cols", SConst (lit "None")); (lit "print_ranges", SConst (lit "None")); (lit "group_rows", SConst (lit "Default::default()")); (lit "group_cols", SConst (lit "Default::default()")); (lit "sheet_config", SConst (lit "Default::default()")); (lit "extra", SConst (lit "vec![]")); (lit "row_header", SConst (lit "Default::default()")); (lit "display", SConst (lit "true")); (lit "print", SConst (lit "true"))];
   Mk (lit "MasterPage") (lit "new_empty") []
      [(lit "name", SConst (lit "Default::default()")); (lit "display_name", SConst (lit "Default::default()")); (lit "pagestyle", SConst (lit "Default::default()")); (lit "next_style_name", SConst (lit "Default::default()")); (lit "header", SConst (lit "Default::default()")); (lit "header_first", SConst (lit "Default::default()")); (lit "header_left", SConst (lit "Default::default()")); (lit "footer", SConst (lit "Default::default()")); (lit "footer_first", SConst (lit "Default::default()")); (lit "footer_left", SConst (lit "Default::default()"))];
   Mk (lit "MasterPage") (lit "new") [lit "name"]
      [(lit "name", SParam (lit "name")); (lit "display_name", SConst (lit "Default::default()")); (lit "pagestyle", SConst (lit "Default::default()")); (lit "next_style_name", SConst (lit "Default::default()")); (lit "header", SConst (lit "Default::default()")); (lit "header_first", SConst (lit "Default::default()")); (lit "header_left", SConst (lit "Default::default()")); (lit "footer", SConst (lit "Default::default()")); (lit "footer_first", SConst (lit "Default::default()")); (lit "footer_left", SConst (lit "Default::default()"))];
   Mk (lit "HeaderFooter") (lit "new") []
      [(lit "display", SConst (lit "true")); (lit "region_left", SConst (lit "Default::default()")); (lit "region_center", SConst (lit "Default::default()")); (lit "region_right", SConst (lit "Default::default()")); (lit "content", SConst (lit "Default::default()"))];
   Mk (lit "StyleMap") (lit "new_empty") []
      [(lit "condition", SConst (lit "Default::default()")); (lit "applied_style", SConst (lit "AnyStyleRef::from("""")")); (lit "base_cell", SConst (lit "None"))];
   Mk (lit "StyleMap") (lit "new") [lit "condition"; lit "applied_style"; lit "base_cell"]
      [(lit "condition", SParam (lit "condition")); (lit "applied_style", SParam (lit "applied_style")); (lit "base_cell", SParam (lit "base_cell"))];
   Mk (lit "PageStyle") (lit "new_empty") []
      [(lit "name", SConst (lit "Default::default()")); (lit "master_page_usage", SConst (lit "None")); (lit "style", SConst (lit "Default::default()")); (lit "header", SConst (lit "Default::default()")); (lit "footer", SConst (lit "Default::default()"))];
   Mk (lit "PageStyle") (lit "new") [lit "name"]
      [(lit "name", SParam (lit "name")); (lit "master_page_usage", SConst (lit "None")); (lit "style", SConst (lit "Default::default()")); (lit "header", SConst (lit "Default::default()")); (lit "footer", SConst (lit "Default::default()"))];
   Mk (lit "FontFaceDecl") (lit "new_empty") []
      [(lit "name", SConst (lit """"".to_string()")); (lit "origin", SConst (lit "Default::default()")); (lit "attr", SConst (lit "Default::default()"))];
   Mk (lit "FontFaceDecl") (lit "new") [lit "name"]
      [(lit "name", SParam (lit "name")); (lit "origin", SConst (lit "StyleOrigin::Content")); (lit "attr", SConst (lit "Default::default()"))];
   Mk (lit "TabStop") (lit "new") []
      [(lit "attr", SConst (lit "Default::default()"))];
   Mk (lit "TextStyle") (lit "new_empty") []
      [(lit "origin", SConst (lit "Default::default()")); (lit "styleuse", SConst (lit "Default::default()")); (lit "name", SConst (lit "Default::default()")); (lit "attr", SConst (lit "Default::default()")); (lit "textstyle", SConst (lit "Default::default()"))];
   Mk (lit "TextStyle") (lit "new") [lit "name"]
      [(lit "origin", SConst (lit "Default::default()")); (lit "styleuse", SConst (lit "Default::default()")); (lit "name", SParam (lit "name")); (lit "attr", SConst (lit "Default::default()")); (lit "textstyle", SConst (lit "Default::default()"))];
   Mk (lit "GraphicStyle") (lit "new_empty") []
      [(lit "origin", SConst (lit "Default::default()")); (lit "styleuse", SConst (lit "Default::default()")); (lit "name", SConst (lit "Default::default()")); (lit "attr", SConst (lit "Default::default()")); (lit "graphicstyle", SConst (lit "Default::default()")); (lit "paragraphstyle", SConst (lit "Default::default()")); (lit "textstyle", SConst (lit "Default::default()"))];
   Mk (lit "GraphicStyle") (lit "new") [lit "name"]
      [(lit "origin", SConst (lit "Default::default()")); (lit "styleuse", SConst (lit "Default::default()")); (lit "name", SParam (lit "name")); (lit "attr", SConst (lit "Default::default()")); (lit "graphicstyle", SConst (lit "Default::default()")); (lit "paragraphstyle", SConst (lit "Default::default()")); (lit "textstyle", SConst (lit "Default::default()"))];
   Mk (lit "ColStyle") (lit "new_empty") []
      [(lit "origin", SConst (lit "Default::default()")); (lit "styleuse", SConst (lit "Default::default()")); (lit "name", SConst (lit "Default::default()")); (lit "attr", SConst (lit "Default::default()")); (lit "colstyle", SConst (lit "Default::default()"))];
   Mk (lit "ColStyle") (lit "new") [lit "name"]
      [(lit "origin", SConst (lit "Default::default()")); (lit "styleuse", SConst (lit "Default::default()")); (lit "name", SParam (lit "name")); (lit "attr", SConst (lit "Default::default()")); (lit "colstyle", SConst (lit "Default::default()"))];
   Mk (lit "RowStyle") (lit "new_empty") []
      [(lit "origin", SConst (lit "Default::default()")); (lit "styleuse", SConst (lit "Default::default()")); (lit "name", SConst (lit "Default::default()")); (lit "attr", SConst (lit "Default::default()")); (lit "rowstyle", SConst (lit "Default::default()"))];
   Mk (lit "RowStyle") (lit "new") [lit "name"]
      [(lit "origin", SConst (lit "Default::default()")); (lit "styleuse", SConst (lit "Default::default()")); (lit "name", SParam (lit "name")); (lit "attr", SConst (lit "Default::default()")); (lit "rowstyle", SConst (lit "Default::default()"))];
   Mk (lit "ParagraphStyle") (lit "new_empty") []
      [(lit "origin", SConst (lit "Default::default()")); (lit "styleuse", SConst (lit "Default::default()")); (lit "name", SConst (lit "Default::default()")); (lit "attr", SConst (lit "Default::default()")); (lit "paragraphstyle", SConst (lit "Default::default()")); (lit "textstyle", SConst (lit "Default::default()")); (lit "tabstops", SConst (lit "None"))];
   Mk (lit "ParagraphStyle") (lit "new") [lit "name"]
      [(lit "origin", SConst (lit "Default::default()")); (lit "styleuse", SConst (lit "Default::default()")); (lit "name", SParam (lit "name")); (lit "attr", SConst (lit "Default::default()")); (lit "paragraphstyle", SConst (lit "Default::default()")); (lit "textstyle", SConst (lit "Default::default()")); (lit "tabstops", SConst (lit "None"))];
   Mk (lit "CellStyle") (lit "new_empty") []
      [(lit "origin", SConst (lit "Default::default()")); (lit "styleuse", SConst (lit "Default::default()")); (lit "name", SConst (lit "Default::default()")); (lit "attr", SConst (lit "Default::default()")); (lit "cellstyle", SConst (lit "Default::default()")); (lit "paragraphstyle", SConst (lit "Default::default()")); (lit "textstyle", SConst (lit "Default::default()")); (lit "stylemaps", SConst (lit "None"))];
   Mk (lit "TableStyle") (lit "new_empty") []
      [(lit "origin", SConst (lit "Default::default()")); (lit "styleuse", SConst (lit "Default::default()")); (lit "name", SConst (lit "Default::default()")); (lit "attr", SConst (lit "Default::default()")); (lit "tablestyle", SConst (lit "Default::default()"))];
   Mk (lit "TableStyle") (lit "new") [lit "name"]
      [(lit "origin", SConst (lit "Default::default()")); (lit "styleuse", SConst (lit "Default::default()")); (lit "name", SParam (lit "name")); (lit "attr", SConst (lit "Default::default()")); (lit "tablestyle", SConst (lit "Default::default()"))];
   Mk (lit "RubyStyle") (lit "new_empty") []
      [(lit "origin", SConst (lit "Default::default()")); (lit "styleuse", SConst (lit "Default::default()")); (lit "name", SConst (lit "Default::default()")); (lit "attr", SConst (lit "Default::default()")); (lit "rubystyle", SConst (lit "Default::default()"))];
   Mk (lit "RubyStyle") (lit "new") [lit "name"]
      [(lit "origin", SConst (lit "Default::default()")); (lit "styleuse", SConst (lit "Default::default()")); (lit "name", SParam (lit "name")); (lit "attr", SConst (lit "Default::default()")); (lit "rubystyle", SConst (lit "Default::default()"))];
   Mk (lit "FormatPart") (lit "new") [lit "ftype"]
      [(lit "part_type", SParam (lit "ftype")); (lit "attr", SConst (lit "Default::default()")); (lit "position", SConst (lit "None")); (lit "content", SConst (lit "None"))];
   Mk (lit "ValueStyleMap") (lit "new") [lit "condition"; lit "applied_style"]
      [(lit "condition", SParam (lit "condition")); (lit "applied_style", SParam (lit "applied_style"))];
   Mk (lit "ValueFormat") (lit "new_empty") []
      [(lit "name", SConst (lit "String::from("""")")); (lit "origin", SConst (lit "Default::default()")); (lit "styleuse", SConst (lit "Default::default()")); (lit "attr", SConst (lit "Default::default()")); (lit "textstyle", SConst (lit "Default::default()")); (lit "parts", SConst (lit "Default::default()")); (lit "stylemaps", SConst (lit "None"))];
   Mk (lit "ValueFormat") (lit "new_named") [lit "name"]
      [(lit "name", SParam (lit "name")); (lit "origin", SConst (lit "Default::default()")); (lit "styleuse", SConst (lit "Default::default()")); (lit "attr", SConst (lit "Default::default()")); (lit "textstyle", SConst (lit "Default::default()")); (lit "parts", SConst (lit "Default::default()")); (lit "stylemaps", SConst (lit "None"))]].
