(** Writing one cell and reading it again: io/write.rs [write_cell], io/read.rs
    [read_table_cell], [read_text_or_tag], [append_text], [set_value]. *)
From Verif Require Import Base OMap XmlModel CellModel NumModel.
From Verif Require Export DrawModel.

(** value_.rs:17-28 [ValueType], 61-75 [Value::value_type]. *)
Inductive vtype := TyEmpty | TyBool | TyNumber | TyPercent | TyCurrency | TyText | TyTextXml | TyDateTime | TyDuration.
Definition value_type (v : value) : vtype :=
  match v with
  | VEmpty => TyEmpty | VBool _ => TyBool | VNumber _ => TyNumber | VPercent _ => TyPercent
  | VCurrency _ _ => TyCurrency | VText _ => TyText | VTextXml _ => TyTextXml
  | VDateTime _ => TyDateTime | VDuration _ => TyDuration
  end.

(** Rust's [str::split('\n')]: one piece more than there are line breaks. *)
Fixpoint split_lines (s : str) : list str :=
  match s with
  | [] => [[]]
  | c :: s' =>
      if c =? c_nl then [] :: split_lines s'
      else match split_lines s' with l :: r => (c :: l) :: r | [] => [[c]] end
  end.

Definition t_cell : str := lit "table:table-cell".
Definition t_covered : str := lit "table:covered-table-cell".
Definition t_p : str := lit "text:p".

(** [if let Some(v) = .. { xml_out.attr_esc(n, v) }], [if k > 1 { xml_out.attr_esc(n, k) }]. *)
Definition opt_attr (n : str) (o : option str) : list call := match o with Some v => [CAttrEsc n v] | None => [] end.
Definition num_attr (n : str) (k : N) : list call := if 1 <? k then [CAttrEsc n (show_N k)] else [].

(** write.rs:2188-2241: the attributes of the value, and what is written inside the cell. *)
Definition para (t : str) : list call := [CElem t_p; CText t; CEnd t_p].
Definition value_attrs (v : value) : list call :=
  let ty s := CAttr (lit "office:value-type") s in
  match v with
  | VEmpty => []
  | VText _ | VTextXml _ => [ty (lit "string")]
  | VDateTime d => [ty (lit "date"); CAttr (lit "office:date-value") (format_datetime d)]
  | VDuration d => [ty (lit "time"); CAttr (lit "office:time-value") (format_duration2 d)]
  | VBool b => [ty (lit "boolean"); CAttr (lit "office:boolean-value") (show_bool b)]
  | VCurrency f c => [ty (lit "currency"); CAttrEsc (lit "office:currency") c; CAttr (lit "office:value") f]
  | VNumber f => [ty (lit "float"); CAttr (lit "office:value") f]
  | VPercent f => [ty (lit "percentage"); CAttr (lit "office:value") f]
  end.
Definition value_body (v : value) : list call :=
  match v with
  | VEmpty => []
  | VText s => map (CElemTextEsc t_p) (split_lines s)
  | VTextXml l => flat_map write_node l
  | VDateTime d => para (format_datetime d)
  | VDuration d => para (format_duration2 d)
  | VBool b => para (show_bool b)
  | VCurrency f c => [CElem t_p; CTextEsc c; CText (lit " "); CText f; CEnd t_p]
  | VNumber f | VPercent f => para f
  end.

(** write.rs:2119-2259 [write_cell]. [dstyle] is [WorkBook::def_style] (workbook_.rs:505-507). *)
Definition cell_has_subs (c : cell) : bool :=
  negb (value_is_empty (c_value c))
  || match c_extra c with Some x => is_some (x_annotation x) || negb (is_nil (x_frames x)) | None => false end.
Definition extra_attrs (x : cext) : list call :=
  opt_attr (lit "table:content-validation-name") (x_validation x)
  ++ num_attr (lit "table:number-rows-spanned") (rspan (x_span x))
  ++ num_attr (lit "table:number-columns-spanned") (cspan_ (x_span x))
  ++ num_attr (lit "table:number-matrix-rows-spanned") (rspan (x_matrix x))
  ++ num_attr (lit "table:number-matrix-columns-spanned") (cspan_ (x_matrix x)).
Definition cell_attrs (dstyle : vtype -> option str) (c : cell) (repeat : N) : list call :=
  opt_attr (lit "table:formula") (c_formula c)
  ++ num_attr (lit "table:number-columns-repeated") repeat
  ++ opt_attr (lit "table:style-name")
       (match c_style c with Some s => Some s | None => dstyle (value_type (c_value c)) end)
  ++ (match c_extra c with Some x => extra_attrs x | None => [] end)
  ++ value_attrs (c_value c).
Definition extra_body (x : cext) : list call :=
  (match x_annotation x with Some a => write_annotation a | None => [] end) ++ flat_map write_frame (x_frames x).
Definition cell_body (c : cell) : list call :=
  value_body (c_value c) ++ match c_extra c with Some x => extra_body x | None => [] end.
Definition cell_tag (hidden : bool) : str := if hidden then t_covered else t_cell.
Definition write_cell (dstyle : vtype -> option str) (c : cell) (hidden : bool) (repeat : N) : list call :=
  CElemIf (cell_has_subs c) (cell_tag hidden) :: cell_attrs dstyle c repeat ++ cell_body c
  ++ [CEndIf (cell_has_subs c) (cell_tag hidden)].

(** ** Reading *)

(** read.rs:1272-1279 [TextContent]. *)
Inductive tcontent := TcEmpty | TcText (s : str) | TcXml (x : xnode) | TcVec (l : list xnode).

(** [TextP::new().text(txt).into_xmltag()] (text.rs); [XmlTag::text] adds the text even if empty. *)
Definition text_p (t : str) : xnode := XTag t_p [] [XText t].

(** read.rs:1512-1573 [append_text]; [new] is never [XmlVec] (unreachable!). *)
Definition wrap_text (new : tcontent) : list xnode :=
  match new with TcEmpty => [] | TcText t => [text_p t] | TcXml x => [x] | TcVec l => l end.
Definition append_text (new old : tcontent) : tcontent :=
  match old with
  | TcEmpty => new
  | TcText t => TcVec (text_p t :: wrap_text new)
  | TcXml x => TcVec (x :: wrap_text new)
  | TcVec l => TcVec (l ++ wrap_text new)
  end.

(** read.rs:4783-4956 [read_text_or_tag]: one event of the loop. [super], [a] are the name and
    attributes of the enclosing tag, [pc] is [cellcontent], the head of [st] the top of the stack.
    The result is the new loop state, or the value returned. A tag under construction is a
    [frame]; a tag that is closed an [xnode]. *)
Inductive pcontent := PEmpty | PText (t : str) | PXml (f : frame).
Definition p_parent (super : str) (a : list (str * str)) (pc : pcontent) : frame :=
  match pc with PEmpty => (super, a, []) | PText t => (super, a, [XText t]) | PXml f => f end.
Definition p_text (v : str) (pc : pcontent) : pcontent :=
  match pc with PEmpty => PText v | PText t => PText (t ++ v) | PXml f => PXml (frame_add (XText v) f) end.
Definition p_done (pc : pcontent) : tcontent :=
  match pc with PEmpty => TcEmpty | PText t => TcText t | PXml f => TcXml (close_frame f) end.
Definition para_step (super : str) (a : list (str * str)) (pc : pcontent) (st : list frame) (e : event)
  : res (pcontent * list frame + tcontent) :=
  match e with
  | EStart n b => Ok (inl (PXml (n, b, []), p_parent super a pc :: st))
  | EEmpty n b => Ok (inl (PXml (frame_add (XTag n b []) (p_parent super a pc)), st))
  | ERef t => let* v := entity t in Ok (inl (p_text v pc, st))
  | EText t => Ok (inl (p_text t pc, st))
  | EEnd n =>
      if str_eqb n super then match st with [] => Ok (inr (p_done pc)) | _ => Err end
      else match pc with
        | PXml f => match st with p :: st' => Ok (inl (PXml (frame_add (close_frame f) p), st')) | [] => Err end
        | _ => Err
        end
  | EOther _ => Ok (inl (pc, st))
  end.

(** read.rs:1281-1292 [ReadTableCell], with the variables [cell] and [repeat] of
    [read_table_cell]. *)
Record cellacc := CA {
  a_cell : option cell; a_repeat : N; a_type : vtype; a_dt : option datetime; a_dur : option Z;
  a_float : option str; a_bool : option bool; a_string : option str; a_cur : option str;
  a_content : tcontent }.
Definition cellacc0 : cellacc := CA None 1 TyEmpty None None None None None None TcEmpty.

(** The attribute names [read_table_cell] knows; [calcext:value-type] is ignored. *)
Inductive ckey := KRepeat | KRows | KCols | KMRows | KMCols | KValidation | KType | KDate | KTime | KValue
  | KBool | KString | KCurrency | KFormula | KStyle.
Definition ckeys : list (str * ckey) :=
  [(lit "table:number-columns-repeated", KRepeat); (lit "table:number-rows-spanned", KRows);
   (lit "table:number-columns-spanned", KCols); (lit "table:number-matrix-rows-spanned", KMRows);
   (lit "table:number-matrix-columns-spanned", KMCols); (lit "table:content-validation-name", KValidation);
   (lit "office:value-type", KType); (lit "office:date-value", KDate); (lit "office:time-value", KTime);
   (lit "office:value", KValue); (lit "office:boolean-value", KBool); (lit "office:string-value", KString);
   (lit "office:currency", KCurrency); (lit "table:formula", KFormula); (lit "table:style-name", KStyle)].
Fixpoint find_key {A} (l : list (str * A)) (k : str) : option A :=
  match l with [] => None | (n, a) :: r => if str_eqb k n then Some a else find_key r k end.

(** [&attr.value] is the text between the quotes, not unescaped. Here it is the escaped value,
    as this library's writer writes it; another program may write it differently. *)
Definition raw (v : str) : str := escape v.

(** read.rs:1361-1377: the type names; an unknown one is an error. *)
Definition read_type (v : str) : res vtype :=
  match find_key [(lit "string", TyText); (lit "float", TyNumber); (lit "percentage", TyPercent);
                  (lit "date", TyDateTime); (lit "time", TyDuration); (lit "boolean", TyBool);
                  (lit "currency", TyCurrency)] v with
  | Some t => Ok t
  | None => Err
  end.

(** [cell.get_or_insert_with(CellData::default)] and a change. *)
Definition a_edit (f : cell -> cell) (s : cellacc) : cellacc :=
  CA (Some (f (match a_cell s with Some c => c | None => cell0 end)))
     (a_repeat s) (a_type s) (a_dt s) (a_dur s) (a_float s) (a_bool s) (a_string s) (a_cur s) (a_content s).
Definition a_touch := a_edit (fun c => c).
Definition edit_extra (f : cext -> cext) (c : cell) : cell := with_extra c (f (extra_mut c)).
Definition x_set_span (s : cspan) (x : cext) : cext :=
  CExt (x_validation x) s (x_matrix x) (x_annotation x) (x_frames x).
Definition x_set_matrix (s : cspan) (x : cext) : cext :=
  CExt (x_validation x) (x_span x) s (x_annotation x) (x_frames x).
Definition set_content (t : tcontent) (s : cellacc) : cellacc :=
  CA (a_cell s) (a_repeat s) (a_type s) (a_dt s) (a_dur s) (a_float s) (a_bool s) (a_string s) (a_cur s) t.

(** read.rs:1323-1424: one attribute. *)
Definition span_attr (v : str) (f : N -> cext -> cext) (s : cellacc) : res cellacc :=
  let* n := parse_u32 (raw v) in Ok (if 1 <? n then a_edit (edit_extra (f n)) s else s).
Definition cell_attr (s : cellacc) (kv : str * str) : res cellacc :=
  let v := snd kv in
  match find_key ckeys (fst kv) with
  | None => Ok s
  | Some KRepeat =>
      let* n := parse_u32 (raw v) in
      Ok (CA (a_cell s) n (a_type s) (a_dt s) (a_dur s) (a_float s) (a_bool s) (a_string s) (a_cur s) (a_content s))
  | Some KRows => span_attr v (fun n x => x_set_span (CSpan n (cspan_ (x_span x))) x) s
  | Some KCols => span_attr v (fun n x => x_set_span (CSpan (rspan (x_span x)) n) x) s
  | Some KMRows => span_attr v (fun n x => x_set_matrix (CSpan n (cspan_ (x_matrix x))) x) s
  | Some KMCols => span_attr v (fun n x => x_set_matrix (CSpan (rspan (x_matrix x)) n) x) s
  | Some KValidation =>
      Ok (a_edit (edit_extra (fun x => CExt (Some v) (x_span x) (x_matrix x) (x_annotation x) (x_frames x))) s)
  | Some KType =>
      let* t := read_type (raw v) in let s := a_touch s in
      Ok (CA (a_cell s) (a_repeat s) t (a_dt s) (a_dur s) (a_float s) (a_bool s) (a_string s) (a_cur s) (a_content s))
  | Some KDate =>
      let* d := parse_datetime (raw v) in let s := a_touch s in
      Ok (CA (a_cell s) (a_repeat s) (a_type s) (Some d) (a_dur s) (a_float s) (a_bool s) (a_string s) (a_cur s) (a_content s))
  | Some KTime =>
      let* d := parse_duration (raw v) in let s := a_touch s in
      Ok (CA (a_cell s) (a_repeat s) (a_type s) (a_dt s) (Some d) (a_float s) (a_bool s) (a_string s) (a_cur s) (a_content s))
  | Some KValue =>
      let* d := parse_f64 (raw v) in let s := a_touch s in
      Ok (CA (a_cell s) (a_repeat s) (a_type s) (a_dt s) (a_dur s) (Some d) (a_bool s) (a_string s) (a_cur s) (a_content s))
  | Some KBool =>
      let* d := parse_bool (raw v) in let s := a_touch s in
      Ok (CA (a_cell s) (a_repeat s) (a_type s) (a_dt s) (a_dur s) (a_float s) (Some d) (a_string s) (a_cur s) (a_content s))
  | Some KString =>
      let s := a_touch s in
      Ok (CA (a_cell s) (a_repeat s) (a_type s) (a_dt s) (a_dur s) (a_float s) (a_bool s) (Some v) (a_cur s) (a_content s))
  | Some KCurrency =>
      let s := a_touch s in
      Ok (CA (a_cell s) (a_repeat s) (a_type s) (a_dt s) (a_dur s) (a_float s) (a_bool s) (a_string s) (Some (raw v)) (a_content s))
  | Some KFormula =>
      Ok (a_edit (fun c => Cell (c_value c) (Some v) (c_style c) (c_repeat c) (c_extra c)) s)
  | Some KStyle =>
      Ok (a_edit (fun c => Cell (c_value c) (c_formula c) (Some v) (c_repeat c) (c_extra c)) s)
  end.
Fixpoint cell_read_attrs (s : cellacc) (l : list (str * str)) : res cellacc :=
  match l with [] => Ok s | kv :: r => let* s' := cell_attr s kv in cell_read_attrs s' r end.

(** read.rs:1436-1461: what is done with an annotation or a frame that was read. *)
Definition put_sub (d : annotation + dframe) (s : cellacc) : cellacc :=
  match d with
  | inl x => a_edit (edit_extra (fun y => CExt (x_validation y) (x_span y) (x_matrix y) (Some x) (x_frames y))) s
  | inr x => a_edit (edit_extra (fun y => CExt (x_validation y) (x_span y) (x_matrix y) (x_annotation y) (x_frames y ++ [x]))) s
  end.
(** read.rs:1426-1472: one event of the loop over the content of the cell. The mode says which
    function is reading: this one, [read_text_or_tag], or the readers of annotations and frames. *)
Inductive cmode := KCell | KPara (a : list (str * str)) (pc : pcontent) (st : list frame) | KSub (m : smode).
Definition cell_step (tag : str) (s : cellacc) (m : cmode) (e : event) : res (cellacc * cmode + cellacc) :=
  match m with
  | KPara a pc st =>
      let* r := para_step t_p a pc st e in
      match r with
      | inl (pc', st') => Ok (inl (s, KPara a pc' st'))
      | inr t => Ok (inl (set_content (append_text t (a_content s)) s, KCell))
      end
  | KSub q =>
      let* r := sub_step q e in
      match r with
      | inl q' => Ok (inl (s, KSub q'))
      | inr d => Ok (inl (put_sub d s, KCell))
      end
  | KCell =>
      match e with
      | EEmpty n _ => if str_eqb n t_p then Ok (inl (set_content (append_text (TcText []) (a_content s)) s, KCell))
                      else Ok (inl (s, KCell))
      | EStart n a =>
          if str_eqb n t_p then Ok (inl (s, KPara a PEmpty []))
          else if str_eqb n t_annotation || str_eqb n t_frame then let* q := sub_start e in Ok (inl (s, KSub q))
          else Ok (inl (s, KCell))
      | EEnd n => if str_eqb n tag then Ok (inr s) else Ok (inl (s, KCell))
      | _ => Ok (inl (s, KCell))
      end
  end.
(** The loop, up to the end tag of the cell; the unread events are returned. The end of the
    file inside a cell ends the loop, but then [read_table] never ends: an error here. *)
Fixpoint cell_loop (tag : str) (s : cellacc) (m : cmode) (evs : list event) : res (cellacc * list event) :=
  match evs with
  | [] => Err
  | e :: r =>
      let* x := cell_step tag s m e in
      match x with
      | inl (s', m') => cell_loop tag s' m' r
      | inr s' => Ok (s', r)
      end
  end.

(** read.rs:1576-1653 [set_value]. *)
Definition need {A} (o : option A) (f : A -> value) : res value := match o with Some a => Ok (f a) | None => Err end.
Definition read_value (s : cellacc) (old : value) : res value :=
  match a_type s with
  | TyEmpty => Ok old
  | TyBool => need (a_bool s) VBool
  | TyNumber => need (a_float s) VNumber
  | TyPercent => need (a_float s) VPercent
  | TyCurrency => need (a_float s) (fun f => VCurrency f (match a_cur s with Some c => c | None => [] end))
  | TyText =>
      match a_string s with
      | Some v => Ok (VText v)
      | None => match a_content s with
          | TcEmpty => Ok old
          | TcText t => Ok (VText t)
          | TcXml x => Ok (VTextXml [x])
          | TcVec l => Ok (VTextXml l)
          end
      end
  | TyTextXml => Panic
  | TyDateTime => need (a_dt s) VDateTime
  | TyDuration => need (a_dur s) VDuration
  end.

(** read.rs:1476-1493, 1496-1510 [ignore_cell]: the number of columns and the cell, if it is stored.
    [dflt]: the default cell style of the column; [ign]: [ignore_empty_cells]. *)
Definition ignore_cell (ign : bool) (dflt : option str) (c : cell) : bool := cell_is_void dflt c || (ign && cell_is_empty c).
Definition cell_finish (ign : bool) (dflt : option str) (s : cellacc) : res (N * option cell) :=
  match a_cell s with
  | None => Ok (a_repeat s, None)
  | Some c =>
      let* v := read_value s (c_value c) in
      let c := Cell v (c_formula c) (c_style c) (c_repeat c) (c_extra c) in
      Ok (a_repeat s, if ignore_cell ign dflt c then None
                      else Some (Cell v (c_formula c) (c_style c) (a_repeat s) (c_extra c)))
  end.

(** read.rs:1294-1494 [read_table_cell] on the events of the cell: columns advanced, cell stored,
    unread events. *)
Definition read_table_cell (ign : bool) (dflt : option str) (evs : list event) : res (N * option cell * list event) :=
  match evs with
  | EEmpty n a :: r =>
      let* s := cell_read_attrs cellacc0 a in
      let* x := cell_finish ign dflt s in Ok (x, r)
  | EStart n a :: r =>
      let* s := cell_read_attrs cellacc0 a in
      let* (s', r') := cell_loop n s KCell r in
      let* x := cell_finish ign dflt s' in Ok (x, r')
  | _ => Err
  end.

(** xmltree.rs:210-221 [extract_text]; value_.rs:330-347 [as_cow_str_or]. *)
Fixpoint extract_text (x : xnode) : str :=
  match x with XText t => t | XTag _ _ c => flat_map extract_text c end.
Fixpoint join_paras (l : list xnode) : str :=
  match l with
  | [] => []
  | [x] => extract_text x
  | x :: r => extract_text x ++ c_nl :: join_paras r
  end.
Definition as_cow_str_or (d : str) (v : value) : str :=
  match v with VText s => s | VTextXml l => join_paras l | _ => d end.
