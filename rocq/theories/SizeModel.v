(** Column widths and row heights: where they are put before writing and taken from after reading. *)
From Verif Require Import Base NumModel EnumModel BookModel StyleModel FmtModel SetModel GetModel.

(** The headers of the columns or of the rows of all sheets, in the order of [WorkBook::sheets] and [Sheet::col_header] or [row_header]
    (sheet_.rs:43-97), with the style and the width or height alone. The loops of this file change nothing else. *)
Inductive axis := Cols | Rows.
Record header := Header { hd_style : option str; hd_size : length_ }.
Definition is_default (l : length_) : bool := match l with LDefault => true | _ => false end.

(** The table of [ColStyle] or [RowStyle]; of a style only the attributes of style:table-column-properties or
    style:table-row-properties. *)
Definition family_of (x : axis) : family := match x with Cols => FCol | Rows => FRow end.
Definition set_optimal (x : axis) (b : bool) : setter := match x with Cols => style_set_use_optimal_col_width b | Rows => style_set_use_optimal_row_height b end.
Definition set_size (x : axis) (l : length_) : setter := match x with Cols => style_set_col_width l | Rows => style_set_row_height l end.

(** write.rs:483-543 [calc_col_header_styles] and [calc_row_header_styles]: what is done with a style for one header. *)
Definition write_size (x : axis) (l : length_) (a : attrs) : res attrs :=
  if is_default l then let* a := run (set_optimal x true) a in run (set_size x LDefault) a else run (set_size x l) a.
(** [colstyle_mut] and [rowstyle_mut]: [None] leaves all as it is. *)
Definition change_size (x : axis) (n : str) (l : length_) (b : book attrs) : res (book attrs) :=
  match style (family_of x) n b with
  | Some s => let* a := write_size x l (nm_body s) in Ok (change_style (family_of x) n (fun s => Named (nm_name s) a) b)
  | None => Ok b
  end.
(** The body of the loop for one header. *)
Definition sync_header (x : axis) (h : header) (b : book attrs) : res (book attrs * header) :=
  let* (b, h) := if negb (is_default (hd_size h)) && negb (match hd_style h with Some _ => true | None => false end)
                 then let* (b, n) := add_style (family_of x) (Named [] []) b in Ok (b, Header (Some n) (hd_size h))
                 else Ok (b, h) in
  let* b := match hd_style h with Some n => change_size x n (hd_size h) b | None => Ok b end in
  Ok (b, h).
Fixpoint sync_headers (x : axis) (hs : list header) (b : book attrs) : res (book attrs * list header) :=
  match hs with
  | [] => Ok (b, [])
  | h :: r => let* (b, h) := sync_header x h b in let* (b, r) := sync_headers x r b in Ok (b, h :: r)
  end.

(** read.rs:648-675, in [calc_derived]: the width or height of one header from its style; a header just read has the default size. *)
Definition style_size (x : axis) (a : attrs) : res length_ :=
  match x with
  | Cols => let* o := get_use_optimal_col_width a in if o then Ok LDefault else get_col_width a
  | Rows => let* o := get_use_optimal_row_height a in if o then Ok LDefault else get_row_height a
  end.
Definition derive_header (x : axis) (b : book attrs) (h : header) : res header :=
  match hd_style h with
  | Some n => match style (family_of x) n b with Some s => let* l := style_size x (nm_body s) in Ok (Header (hd_style h) l) | None => Ok h end
  | None => Ok h
  end.
Fixpoint derive_headers (x : axis) (b : book attrs) (hs : list header) : res (list header) :=
  match hs with [] => Ok [] | h :: r => let* h := derive_header x b h in let* r := derive_headers x b r in Ok (h :: r) end.

(** Writing and reading: the styles come back with their attributes (C50) and the headers with the name of their style (C20, C48), but
    without a size of their own, which is in no file. *)
Definition through (x : axis) (hs : list header) (b : book attrs) : res (book attrs * list header) :=
  let* (b, hs) := sync_headers x hs b in
  let* hs := derive_headers x b (map (fun h => Header (hd_style h) LDefault) hs) in Ok (b, hs).

(** sheet_.rs:793-795, 959-961 [set_col_width] and [set_row_height] on the header of the column or row, and 727-729, 885-887 [set_colstyle]
    and [set_rowstyle]. *)
Definition resize (l : length_) (h : header) : header := Header (hd_style h) l.
Definition restyle (n : str) (h : header) : header := Header (Some n) (hd_size h).
