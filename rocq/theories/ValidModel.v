(** Content validations: src/validation.rs, their text form in content.xml and its reading. *)
From Verif Require Import Base NumModel EnumModel RefsModel XmlModel CellModel CellIoModel BookModel.

(** validation.rs:60-66 [ValidationHelp] ([T] is [unit]) and 142-149 [ValidationError] ([T] is [msgtype]). *)
Record message (T : Type) := Msg { m_display : bool; m_type : T; m_title : option str; m_text : option xnode }.
Arguments Msg {T} _ _ _ _.
Arguments m_display {T} _.
Arguments m_type {T} _.
Arguments m_title {T} _.
Arguments m_text {T} _.
(** validation.rs:158-166 and 75-82: [new]. *)
Definition error0 : message msgtype := Msg true MError None None.
Definition help0 : message unit := Msg true tt None None.

(** validation.rs:217-228 [Validation] without the name, which is in [named]; a condition is its text (condition.rs:160-162). *)
Record vbody := VBody { vb_cond : str; vb_base : cellref; vb_empty : bool; vb_list : vdisplay; vb_err : option (message msgtype); vb_help : option (message unit) }.
Definition validation : Type := named vbody.
(** The default cell reference (refs.rs:144-157, derived). *)
Definition ref0 : cellref := mkCellRef None None false 0 false 0.
(** validation.rs:230-247 [new]. *)
Definition vbody0 : vbody := VBody [] ref0 true Unsorted (Some error0) None.
Definition valid0 : validation := Named [] vbody0.

Definition t_valids : str := lit "table:content-validations".
Definition t_valid : str := lit "table:content-validation".
Definition t_err : str := lit "table:error-message".
Definition t_help : str := lit "table:help-message".

(** ** Writing *)

(** write.rs:1441-1451 and 1453-1462: the two kinds of messages; [ty] is the attribute with the type. *)
Definition message_calls {T} (tag : str) (ty : T -> list call) (m : message T) : list call :=
  [CElemIf (is_some (m_text m)) tag; CAttr (lit "table:display") (show_bool (m_display m))] ++ ty (m_type m)
  ++ (match m_title m with Some t => [CAttrEsc (lit "table:title") t] | None => [] end)
  ++ (match m_text m with Some x => write_node x | None => [] end) ++ [CEndIf (is_some (m_text m)) tag].
Definition err_type (t : msgtype) : list call := [CAttr (lit "table:message-type") (show_msgtype t)].
Definition help_type (t : unit) : list call := [].
(** write.rs:1421-1465: one validation; the condition as in format.rs:24-34. *)
Definition valid_calls (v : validation) : res (list call) :=
  let b := nm_body v in
  let* base := fmt_cell_ref (vb_base b) in
  Ok ([CElem t_valid; CAttrEsc (lit "table:name") (nm_name v); CAttrEsc (lit "table:condition") (lit "of:" ++ vb_cond b);
       CAttr (lit "table:allow-empty-cell") (show_bool (vb_empty b)); CAttr (lit "table:display-list") (show_vdisplay (vb_list b));
       CAttrEsc (lit "table:base-cell-address") base]
      ++ (match vb_err b with Some m => message_calls t_err err_type m | None => [] end)
      ++ (match vb_help b with Some m => message_calls t_help help_type m | None => [] end)
      ++ [CEnd t_valid]).
Fixpoint valids_calls (vs : list validation) : res (list call) :=
  match vs with [] => Ok [] | v :: r => let* a := valid_calls v in let* b := valids_calls r in Ok (a ++ b) end.
(** write.rs:1414-1470 [write_content_validations]; [vs] are the values of the map in its order. *)
Definition write_validations (vs : list validation) : res (list call) :=
  match vs with [] => Ok [] | _ => let* b := valids_calls vs in Ok (CElem t_valids :: b ++ [CEnd t_valids]) end.

(** ** Reading *)

(** read.rs:4783-4956 [read_text_or_tag], see [para_step]. *)
Fixpoint para_loop (super : str) (a : list (str * str)) (pc : pcontent) (st : list frame) (evs : list event) : res (tcontent * list event) :=
  match evs with
  | [] => Ok (p_done pc, [])
  | e :: r => let* x := para_step super a pc st e in match x with inl (pc', st') => para_loop super a pc' st' r | inr t => Ok (t, r) end
  end.
Definition read_text_or_tag (super : str) (a : list (str * str)) (empty : bool) (evs : list event) : res (tcontent * list event) :=
  if empty then Ok (TcEmpty, evs) else para_loop super a PEmpty [] evs.

(** read.rs:2123-2135 and 2170-2199: the attributes of a message; [ty] parses the type, if there is one. *)
Definition message_attr {T} (ty : option (str -> res T)) (m : message T) (kv : str * str) : res (message T) :=
  let '(Msg d t ti tx) := m in let '(n, v) := kv in
  if str_eqb n (lit "table:display") then let* b := parse_bool (raw v) in Ok (Msg b t ti tx)
  else if str_eqb n (lit "table:title") then Ok (Msg d t (Some v) tx)
  else match ty with
    | Some p => if str_eqb n (lit "table:message-type") then let* t' := p (raw v) in Ok (Msg d t' ti tx) else Ok m
    | None => Ok m
    end.
Fixpoint message_attrs {T} (ty : option (str -> res T)) (m : message T) (a : list (str * str)) : res (message T) :=
  match a with [] => Ok m | kv :: r => let* m' := message_attr ty m kv in message_attrs ty m' r end.
(** read.rs:2112-2153 [read_validation_help] and 2155-2217 [read_validation_error]: the message and the events left. *)
Definition read_message {T} (ty : option (str -> res T)) (m0 : message T) (tag : str) (a : list (str * str)) (empty : bool) (evs : list event) : res (message T * list event) :=
  let* m := message_attrs ty m0 a in
  let* (t, r) := read_text_or_tag tag a empty evs in
  match t with
  | TcEmpty => Ok (m, r)
  | TcXml x => Ok (Msg (m_display m) (m_type m) (m_title m) (Some x), r)
  | _ => Err
  end.
(** read.rs:2219-2249 [read_validation]. [split_at(3)] counts bytes and panics if there are too few or if a character does not end there. *)
Definition utf8_len (c : char) : nat := if c <? 128 then 1 else if c <? 2048 then 2 else if c <? 65536 then 3 else 4.
Fixpoint split_bytes (n : nat) (s : str) : res str :=
  match n, s with
  | O, _ => Ok s
  | _, [] => Panic
  | _, c :: r => if (utf8_len c <=? n)%nat then split_bytes (n - utf8_len c) r else Panic
  end.
Definition valid_attr (v : validation) (kv : str * str) : res validation :=
  let '(Named nm (VBody c b e l er h)) := v in let '(n, x) := kv in
  if str_eqb n (lit "table:name") then Ok (Named x (VBody c b e l er h))
  else if str_eqb n (lit "table:condition") then let* c' := split_bytes 3 x in Ok (Named nm (VBody c' b e l er h))
  else if str_eqb n (lit "table:allow-empty-cell") then let* e' := parse_bool (raw x) in Ok (Named nm (VBody c b e' l er h))
  else if str_eqb n (lit "table:base-cell-address") then let* b' := parse_cellref x in Ok (Named nm (VBody c b' e l er h))
  else if str_eqb n (lit "table:display-list") then let* l' := parse_vdisplay (raw x) in Ok (Named nm (VBody c b e l' er h))
  else Ok v.
Fixpoint valid_attrs (v : validation) (a : list (str * str)) : res validation :=
  match a with [] => Ok v | kv :: r => let* v' := valid_attr v kv in valid_attrs v' r end.
Definition with_err (v : validation) (m : message msgtype) : validation :=
  let '(Named n (VBody c b e l _ h)) := v in Named n (VBody c b e l (Some m) h).
Definition with_help (v : validation) (m : message unit) : validation :=
  let '(Named n (VBody c b e l er _)) := v in Named n (VBody c b e l er (Some m)).
(** read.rs:2065-2110 [read_validations]; [n] bounds the number of events, [v] is the validation under construction, [bk] the workbook.
    The arm for empty elements (2080-2082) is never reached, it has the same pattern as the arm before it. *)
Fixpoint read_valids (n : nat) (evs : list event) (v : validation) (bk : book vbody) : res (book vbody * list event) :=
  match n, evs with
  | _, [] => Ok (bk, [])
  | O, _ => Err
  | S n', e :: r =>
      match e with
      | EStart t a =>
          if str_eqb t t_valid then let* w := valid_attrs v a in let* (bk', _) := add_style FValidation w bk in read_valids n' r valid0 bk'
          else if str_eqb t t_err then let* (m, r') := read_message (Some parse_msgtype) error0 t a false r in read_valids n' r' (with_err v m) bk
          else if str_eqb t t_help then let* (m, r') := read_message None help0 t a false r in read_valids n' r' (with_help v m) bk
          else read_valids n' r v bk
      | EEmpty t a =>
          if str_eqb t t_err then let* (m, r') := read_message (Some parse_msgtype) error0 t a true r in read_valids n' r' (with_err v m) bk
          else if str_eqb t t_help then let* (m, r') := read_message None help0 t a true r in read_valids n' r' (with_help v m) bk
          else read_valids n' r v bk
      | EEnd t =>
          if str_eqb t t_valid then let* (bk', _) := add_style FValidation v bk in read_valids n' r valid0 bk'
          else if str_eqb t t_valids then Ok (bk, r)
          else read_valids n' r v bk
      | _ => read_valids n' r v bk
      end
  end.
(** read.rs:791-868 [read_office_body]: how the function is called. Everything else is passed over, also what comes after the first element
    of the name. *)
Fixpoint read_body (evs : list event) (bk : book vbody) : res (book vbody) :=
  match evs with
  | [] => Ok bk
  | EStart t a :: r => if str_eqb t t_valids then let* (bk', _) := read_valids (length r) r valid0 bk in Ok bk' else read_body r bk
  | _ :: r => read_body r bk
  end.
