(** Cells and the cell map of a sheet: src/cell_.rs, src/sheet_.rs. *)
From Verif Require Import Base OMap XmlModel.

(** chrono's [NaiveDateTime] by its fields; proleptic Gregorian, leap seconds are
    kept in [dt_nano] as chrono does (>= 10^9). *)
Record datetime := DateTime {
  dt_year : Z; dt_month : N; dt_day : N;
  dt_hour : N; dt_minute : N; dt_second : N; dt_nano : N }.

(** src/value_.rs:31-42 [Value]. An f64 is represented by the text Rust's [Display]
    prints for it (trusted: printing and parsing are inverse on finite floats);
    a [TextTag]/[XmlTag] is an [xnode]; a [Duration] is its signed nanoseconds. *)
Inductive value :=
| VEmpty
| VBool (b : bool)
| VNumber (f : str)
| VPercent (f : str)
| VCurrency (f cur : str)
| VText (s : str)
| VTextXml (l : list xnode)
| VDateTime (d : datetime)
| VDuration (ns : Z).

(** src/cell_.rs:8-22 [CellSpan], default 1 x 1. *)
Record cspan := CSpan { rspan : N; cspan_ : N }.
Definition span1 : cspan := CSpan 1 1.
(** src/cell_.rs:48-50 [CellSpan::is_empty] *)
Definition span_is_empty (s : cspan) : bool := (rspan s =? 1) && (cspan_ s =? 1).
(** src/cell_.rs:55-58, 70-73 [CellSpan::{set_row_span,set_col_span}] *)
Definition span_set_row (n : N) (s : cspan) : res cspan := if 0 <? n then Ok (CSpan n (cspan_ s)) else Panic.
Definition span_set_col (n : N) (s : cspan) : res cspan := if 0 <? n then Ok (CSpan (rspan s) n) else Panic.

(** src/draw.rs:17-29 [Annotation], 350-356 [DrawImage], 224-238 [DrawFrame]; a [DrawFrameContent] is always an image. The attributes
    ([AttrMap2]) are the list of pairs that iterating gives, see AttrModel. The texts are trees as for rich text. *)
Record annotation := Ann {
  an_name : str; an_display : bool; an_creator : option str; an_date : option datetime; an_text : list xnode; an_attrs : list (str * str) }.
Record dimage := DImage { im_attrs : list (str * str); im_data : option str; im_text : list xnode }.
Record dframe := DFrame { df_title : option str; df_desc : option str; df_attrs : list (str * str); df_content : list dimage }.

(** src/cell_.rs:98-110 [CellDataExt]. *)
Record cext := CExt {
  x_validation : option str; x_span : cspan; x_matrix : cspan;
  x_annotation : option annotation; x_frames : list dframe }.
Definition cext0 : cext := CExt None span1 span1 None [].

(** src/cell_.rs:83-95, 112-123 [CellData] and its default. *)
Record cell := Cell {
  c_value : value; c_formula : option str; c_style : option str;
  c_repeat : N; c_extra : option cext }.
Definition cell0 : cell := Cell VEmpty None None 1 None.

(** src/cell_.rs:397-419 [CellContent]. *)
Record content := Content {
  k_value : value; k_style : option str; k_formula : option str; k_repeat : N;
  k_validation : option str; k_span : cspan; k_matrix : cspan;
  k_annotation : option annotation; k_frames : list dframe }.
(** src/cell_.rs:422-426 [CellContent::new]: the derived default, so [repeat] is 0. *)
Definition content_new : content := Content VEmpty None None 0 None span1 span1 None [].

(** src/cell_.rs:290-312 [CellContentRef]; same fields, the frames are optional. *)
Record cref := CRef {
  r_value : value; r_style : option str; r_formula : option str; r_repeat : N;
  r_validation : option str; r_span : cspan; r_matrix : cspan;
  r_annotation : option annotation; r_frames : option (list dframe) }.

(** src/cell_.rs:127-137, 139-150, 152-171 [CellData::{is_empty,is_void,is_void_extra}] *)
Definition is_some {A} (o : option A) : bool := match o with Some _ => true | None => false end.
Definition is_nil {A} (l : list A) : bool := match l with [] => true | _ => false end.
Definition value_is_empty (v : value) : bool := match v with VEmpty => true | _ => false end.
Definition is_void_extra (c : cell) : bool :=
  match c_extra c with
  | None => true
  | Some x => span_is_empty (x_span x) && negb (is_some (x_validation x)) && negb (is_some (x_annotation x))
              && is_nil (x_frames x) && span_is_empty (x_matrix x)
  end.
Definition cell_is_empty (c : cell) : bool :=
  value_is_empty (c_value c) && negb (is_some (c_formula c)) && is_void_extra c.
Definition ostr_eqb (a b : option str) : bool :=
  match a, b with Some x, Some y => str_eqb x y | None, None => true | _, _ => false end.
Definition cell_is_void (default_style : option str) (c : cell) : bool :=
  value_is_empty (c_value c) && negb (is_some (c_formula c))
  && negb (is_some (c_style c) && negb (ostr_eqb (c_style c) default_style)) && is_void_extra c.

(** src/cell_.rs:189-194 [extra_mut] *)
Definition extra_mut (c : cell) : cext := match c_extra c with Some x => x | None => cext0 end.
Definition with_extra (c : cell) (x : cext) : cell :=
  Cell (c_value c) (c_formula c) (c_style c) (c_repeat c) (Some x).

(** src/cell_.rs:196-227 and 229-260 [cloned_cell_content]/[into_cell_content]:
    the two differ in cloning only. *)
Definition cell_content (c : cell) : content :=
  match c_extra c with
  | Some x => Content (c_value c) (c_style c) (c_formula c) (c_repeat c)
                (x_validation x) (x_span x) (x_matrix x) (x_annotation x) (x_frames x)
  | None => Content (c_value c) (c_style c) (c_formula c) (c_repeat c) None span1 span1 None []
  end.
(** src/cell_.rs:262-287 [cell_content_ref] *)
Definition cell_ref_of (c : cell) : cref :=
  match c_extra c with
  | Some x => CRef (c_value c) (c_style c) (c_formula c) (c_repeat c)
                (x_validation x) (x_span x) (x_matrix x) (x_annotation x) (Some (x_frames x))
  | None => CRef (c_value c) (c_style c) (c_formula c) (c_repeat c) None span1 span1 None None
  end.
(** src/cell_.rs:382-394 [CellContentRef::to_owned] *)
Definition ref_to_owned (r : cref) : content :=
  Content (r_value r) (r_style r) (r_formula r) (r_repeat r) (r_validation r) (r_span r) (r_matrix r)
    (r_annotation r) (match r_frames r with Some l => l | None => [] end).
(** src/cell_.rs:428-460 [into_celldata], [into_celldata_ext] *)
Definition content_ext (k : content) : option cext :=
  if is_some (k_validation k) || negb (span_is_empty (k_span k)) || negb (span_is_empty (k_matrix k))
     || is_some (k_annotation k) || negb (is_nil (k_frames k))
  then Some (CExt (k_validation k) (k_span k) (k_matrix k) (k_annotation k) (k_frames k))
  else None.
Definition content_cell (k : content) : cell :=
  Cell (k_value k) (k_formula k) (k_style k) (k_repeat k) (content_ext k).

(** src/sheet_.rs:110 [Sheet::data]. *)
Definition cells := omap pos cell.

(** Getters, src/sheet_.rs:1024-1299. *)
Definition sh_cell (p : pos) (m : cells) : option cell := om_get pltb p m.
Definition sh_is_empty (p : pos) (m : cells) : bool := negb (om_mem pltb p m).                        (* 1024-1026 *)
Definition sh_content p m : option content := option_map cell_content (sh_cell p m). (* 1029-1033 *)
Definition sh_ref p m : option cref := option_map cell_ref_of (sh_cell p m).         (* 1036-1038 *)
Definition sh_value p m : value := match sh_cell p m with Some c => c_value c | None => VEmpty end.
Definition sh_formula p m := match sh_cell p m with Some c => c_formula c | None => None end.
Definition sh_repeat p m : N := match sh_cell p m with Some c => c_repeat c | None => 1 end.
Definition sh_style p m := match sh_cell p m with Some c => c_style c | None => None end.
Definition sh_extra p m : option cext := match sh_cell p m with Some c => c_extra c | None => None end.
Definition sh_validation p m := match sh_extra p m with Some x => x_validation x | None => None end.
Definition sh_row_span p m : N := match sh_extra p m with Some x => rspan (x_span x) | None => 1 end.
Definition sh_col_span p m : N := match sh_extra p m with Some x => cspan_ (x_span x) | None => 1 end.
Definition sh_mrow_span p m : N := match sh_extra p m with Some x => rspan (x_matrix x) | None => 1 end.
Definition sh_mcol_span p m : N := match sh_extra p m with Some x => cspan_ (x_matrix x) | None => 1 end.
Definition sh_annotation p m := match sh_extra p m with Some x => x_annotation x | None => None end.
Definition sh_frames p m : option (list dframe) := match sh_extra p m with Some x => Some (x_frames x) | None => None end.

(** One public operation on one cell, src/sheet_.rs:1041-1292. [annotation_mut] and
    [draw_frames_mut] (arbitrary in-place edits) are not included. *)
Inductive cell_op :=
| SetValue (v : value)
| SetStyled (v : value) (s : str)
| SetFormula (f : str)
| ClearFormula
| SetRepeat (n : N)
| SetStyle (s : str)
| ClearStyle
| SetValidation (v : str)
| ClearValidation
| SetRowSpan (n : N)
| SetColSpan (n : N)
| SetMRowSpan (n : N)
| SetMColSpan (n : N)
| SetAnnotation (a : annotation)
| ClearAnnotation
| AddFrame (f : dframe)
| ClearFrames
| AddCell (k : content)
| RemoveCell.

(** How an operation on an existing (or default) cell changes its data. *)
Definition edit_extra (f : cext -> cext) (c : cell) : cell := with_extra c (f (extra_mut c)).
Definition try_extra (f : cext -> res cext) (c : cell) : res cell :=
  let* x := f (extra_mut c) in Ok (with_extra c x).
Definition entry (p : pos) (m : cells) : cell := match sh_cell p m with Some c => c | None => cell0 end.

Definition upsert (p : pos) (f : cell -> cell) (m : cells) : cells := om_upsert pltb p cell0 f m.
Definition try_upsert (p : pos) (f : cell -> res cell) (m : cells) : res cells :=
  let* c := f (entry p m) in Ok (om_insert pltb p c m).

Definition set_validation_ v x := CExt v (x_span x) (x_matrix x) (x_annotation x) (x_frames x).
Definition set_span_ s x := CExt (x_validation x) s (x_matrix x) (x_annotation x) (x_frames x).
Definition set_matrix_ s x := CExt (x_validation x) (x_span x) s (x_annotation x) (x_frames x).
Definition set_annotation_ a x := CExt (x_validation x) (x_span x) (x_matrix x) a (x_frames x).
Definition set_frames_ l x := CExt (x_validation x) (x_span x) (x_matrix x) (x_annotation x) l.

Definition apply_op (p : pos) (o : cell_op) (m : cells) : res cells :=
  match o with
  | SetValue v => Ok (upsert p (fun c => Cell v (c_formula c) (c_style c) (c_repeat c) (c_extra c)) m)
  | SetStyled v s => Ok (upsert p (fun c => Cell v (c_formula c) (Some s) (c_repeat c) (c_extra c)) m)
  | SetFormula f => Ok (upsert p (fun c => Cell (c_value c) (Some f) (c_style c) (c_repeat c) (c_extra c)) m)
  | ClearFormula => Ok (om_adjust pltb p (fun c => Cell (c_value c) None (c_style c) (c_repeat c) (c_extra c)) m)
  | SetRepeat n => Ok (upsert p (fun c => Cell (c_value c) (c_formula c) (c_style c) n (c_extra c)) m)
  | SetStyle s => Ok (upsert p (fun c => Cell (c_value c) (c_formula c) (Some s) (c_repeat c) (c_extra c)) m)
  | ClearStyle => Ok (om_adjust pltb p (fun c => Cell (c_value c) (c_formula c) None (c_repeat c) (c_extra c)) m)
  | SetValidation v => Ok (upsert p (edit_extra (set_validation_ (Some v))) m)
  | ClearValidation => Ok (om_adjust pltb p (edit_extra (set_validation_ None)) m)
  | SetRowSpan n => try_upsert p (try_extra (fun x => let* s := span_set_row n (x_span x) in Ok (set_span_ s x))) m
  | SetColSpan n => try_upsert p (try_extra (fun x => let* s := span_set_col n (x_span x) in Ok (set_span_ s x))) m
  | SetMRowSpan n => try_upsert p (try_extra (fun x => let* s := span_set_row n (x_matrix x) in Ok (set_matrix_ s x))) m
  | SetMColSpan n => try_upsert p (try_extra (fun x => let* s := span_set_col n (x_matrix x) in Ok (set_matrix_ s x))) m
  | SetAnnotation a => Ok (upsert p (edit_extra (set_annotation_ (Some a))) m)
  | ClearAnnotation => Ok (om_adjust pltb p (edit_extra (set_annotation_ None)) m)
  | AddFrame f => Ok (upsert p (edit_extra (fun x => set_frames_ (x_frames x ++ [f]) x)) m)
  | ClearFrames => Ok (om_adjust pltb p (edit_extra (set_frames_ [])) m)
  | AddCell k => Ok (om_insert pltb p (content_cell k) m)
  | RemoveCell => Ok (om_remove pltb p m)
  end.

Fixpoint run_ops (ops : list (pos * cell_op)) (m : cells) : res cells :=
  match ops with
  | [] => Ok m
  | (p, o) :: ops' => let* m' := apply_op p o m in run_ops ops' m'
  end.

(** src/sheet_.rs:1046-1050 [remove_cell]: what is returned. *)
Definition remove_cell (p : pos) (m : cells) : option content * cells :=
  (option_map cell_content (sh_cell p m), om_remove pltb p m).

(** src/sheet_.rs:993-1001 [used_grid_size] *)
Definition grid_max (m : cells) : pos :=
  fold_left (fun mx kv => (N.max (fst mx) (fst (fst kv)), N.max (snd mx) (snd (fst kv)))) m (0, 0).
Definition used_grid_size (m : cells) : res pos :=
  let mx := grid_max m in
  let* r := add32 (fst mx) 1 in
  let* c := add32 (snd mx) 1 in
  Ok (r, c).

(** Iterators. An item is a position with the cell's content. *)
Definition item : Type := pos * cref.
Definition item_of (kv : pos * cell) : item := (fst kv, cell_ref_of (snd kv)).

(** src/sheet_.rs:270-319 [CellIter]: the btree iterator (rest of the sequence) and
    the entry read ahead. *)
Record cell_iter := CellIter { ci_rest : list (pos * cell); ci_ahead : option (pos * cell) }.
Definition sh_iter (m : cells) : cell_iter := CellIter m None.                 (* 131-142 *)
Definition ci_peek (i : cell_iter) : option pos := option_map fst (ci_ahead i). (* 278-281 *)
Definition ci_load (i : cell_iter) : cell_iter :=                               (* 283-291 *)
  match ci_rest i with
  | kv :: r => CellIter r (Some kv)
  | [] => CellIter [] None
  end.
Definition ci_next (i : cell_iter) : option item * cell_iter :=                 (* 299-314 *)
  let i := match ci_ahead i with None => ci_load i | Some _ => i end in
  match ci_ahead i with
  | Some kv => (Some (item_of kv), ci_load i)
  | None => (None, i)
  end.
(** 316-318 [size_hint]; the btree iterator knows its exact length. *)
Definition ci_size_hint (i : cell_iter) : nat * option nat :=
  (length (ci_rest i), Some (length (ci_rest i))).
(** The results of the next [n] calls. *)
Fixpoint ci_run (n : nat) (i : cell_iter) : list (option item) :=
  match n with
  | O => []
  | S n' => let (x, i') := ci_next i in x :: ci_run n' i'
  end.

(** src/sheet_.rs:459-489, 613-620 [Range]: the btree range, item by item. *)
Definition sh_range (lo hi : bound pos) (m : cells) : res (list item) :=
  let* l := om_range pltb lo hi m in Ok (map item_of l).

(** src/sheet_.rs:330-341 and 395-406: the corners of the rectangle. *)
Definition corners (lo hi : bound pos) (m : cells) : res (pos * pos) :=
  let* s := match lo with
    | Included p => Ok p
    | Excluded (r, c) => let* r' := add32 r 1 in let* c' := add32 c 1 in Ok (r', c')
    | Unbounded => Ok (0, 0)
    end in
  let* e := match hi with
    | Included (r, c) => let* r' := add32 r 1 in let* c' := add32 c 1 in Ok (r', c')
    | Excluded p => Ok p
    | Unbounded => used_grid_size m
    end in
  Ok (s, e).

(** src/sheet_.rs:321-351 [IterRows::new]; the hint cannot overflow usize (64 bit). *)
Record iter_rows := IterRows { ir_rest : list (pos * cell); ir_start : pos; ir_end : pos; ir_hint : N }.
Definition rows_new (lo hi : bound pos) (m : cells) : res iter_rows :=
  let* se := corners lo hi m in
  let (s, e) := se in
  let* l := om_range pltb lo hi m in
  let* a := sub32 (fst e) (fst s) in
  let* b := mul32 (snd e) (snd s) in
  Ok (IterRows l s e (a * b)).
(** src/sheet_.rs:355-370 [IterRows::next]: the loop consumes the list. *)
Fixpoint rows_loop (s e : pos) (l : list (pos * cell)) : option item * list (pos * cell) :=
  match l with
  | [] => (None, [])
  | ((r, c), d) :: l' =>
      if (r <? fst e) && (snd s <=? c) && (c <? snd e) then (Some ((r, c), cell_ref_of d), l')
      else rows_loop s e l'
  end.
Definition rows_next (i : iter_rows) : option item * iter_rows :=
  let (x, l) := rows_loop (ir_start i) (ir_end i) (ir_rest i) in
  (x, IterRows l (ir_start i) (ir_end i) (ir_hint i)).
Fixpoint rows_run (n : nat) (i : iter_rows) : list (option item) :=
  match n with
  | O => []
  | S n' => let (x, i') := rows_next i in x :: rows_run n' i'
  end.

(** src/sheet_.rs:372-455 [IterCols]. *)
Record iter_cols := IterCols { ic_start : pos; ic_end : pos; ic_cell : pos }.
Definition cols_new (lo hi : bound pos) (m : cells) : res iter_cols :=
  let* se := corners lo hi m in
  Ok (IterCols (fst se) (snd se) (fst se)).
Definition pos_eqb (a b : pos) : bool := (fst a =? fst b) && (snd a =? snd b).
(** 428-445: where the cursor goes. *)
Definition cols_advance (s e cur : pos) : res pos :=
  let* r1 := add32 (fst cur) 1 in
  let stay := if pos_eqb cur e then Ok cur else Panic in
  if r1 <? fst e then Ok (r1, snd cur)
  else if r1 =? fst e then
    let* c1 := add32 (snd cur) 1 in
    if c1 <? snd e then Ok (fst s, c1)
    else if c1 =? snd e then Ok (r1, c1)
    else stay
  else stay.
(** 423-449: the loop; [None] if it does not finish within [fuel] rounds. *)
Fixpoint cols_loop (fuel : nat) (m : cells) (s e cur : pos) : option (res (option item * pos)) :=
  match fuel with
  | O => None
  | S fuel' =>
      match cols_advance s e cur with
      | Ok cur' =>
          match sh_ref cur m with
          | Some d => Some (Ok (Some (cur, d), cur'))
          | None => cols_loop fuel' m s e cur'
          end
      | Err => Some Err
      | Panic => Some Panic
      end
  end.
(** 417-421 *)
Definition cols_next (fuel : nat) (m : cells) (i : iter_cols) : option (res (option item * iter_cols)) :=
  if pos_eqb (ic_cell i) (ic_end i) then Some (Ok (None, i))
  else match cols_loop fuel m (ic_start i) (ic_end i) (ic_cell i) with
       | Some (Ok (x, cur)) => Some (Ok (x, IterCols (ic_start i) (ic_end i) cur))
       | Some Err => Some Err
       | Some Panic => Some Panic
       | None => None
       end.
(** The results of the next [n] calls and the iterator after them; [None] if one of the
    calls does not finish. *)
Fixpoint cols_run (fuel n : nat) (m : cells) (i : iter_cols) : option (res (list (option item) * iter_cols)) :=
  match n with
  | O => Some (Ok ([], i))
  | S n' =>
      match cols_next fuel m i with
      | Some (Ok (x, i')) =>
          match cols_run fuel n' m i' with
          | Some (Ok (l, j)) => Some (Ok (x :: l, j))
          | Some Err => Some Err
          | Some Panic => Some Panic
          | None => None
          end
      | Some Err => Some Err
      | Some Panic => Some Panic
      | None => None
      end
  end.
