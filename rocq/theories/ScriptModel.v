(** Scripts and event listeners of the workbook, their text form in content.xml and its reading. *)
From Verif Require Import Base EnumModel XmlModel BookModel.

(** workbook_.rs:1206-1210, 1240-1249. *)
Record script : Type := Script { sc_lang : str; sc_body : list xnode }.
Record listener : Type := Listener { li_event : str; li_lang : str; li_macro : str; li_actuate : xactuate; li_href : str; li_type : xtype }.
(** workbook_.rs:1253-1262 [EventListener::new]; the default link type is [simple]. *)
Definition listener0 : listener := Listener [] [] [] OnLoad [] XSimple.

Definition t_scripts : str := lit "office:scripts".
Definition t_script : str := lit "office:script".
Definition t_listener : str := lit "script:event-listener".

(** write.rs:2346-2359 [write_scripts]: the name of the end tag has a slash there already. *)
Definition script_calls (s : script) : list call :=
  [CElem t_script; CAttrEsc (lit "script:language") (sc_lang s)] ++ flat_map write_node (sc_body s) ++ [CEnd (lit "/office:script")].
(** write.rs:2361-2376 [write_event_listeners]. *)
Definition listener_calls (l : listener) : list call :=
  [CEmpty t_listener; CAttrEsc (lit "script:event-name") (li_event l); CAttrEsc (lit "script:language") (li_lang l);
   CAttrEsc (lit "script:macro-name") (li_macro l); CAttrEsc (lit "xlink:actuate") (show_xactuate (li_actuate l));
   CAttrEsc (lit "xlink:href") (li_href l); CAttrEsc (lit "xlink:type") (show_xtype (li_type l))].
(** write.rs:1406-1412 [write_office_scripts]; [ls] are the values of the map of listeners, in the order of the map. *)
Definition write_office_scripts (ss : list script) (ls : list listener) : list call :=
  [CElemIf (match ss with [] => false | _ => true end) t_scripts] ++ flat_map script_calls ss ++ flat_map listener_calls ls
  ++ [CEndIf (match ss with [] => false | _ => true end) t_scripts].
(** write.rs:1346-1361: the document, [rest] is what follows the scripts, [ns] are the namespaces and the version. *)
Definition write_content (ns : list (str * str)) (ss : list script) (ls : list listener) (rest : list call) : list call :=
  [CDtd (lit "UTF-8"); CElem (lit "office:document-content")] ++ map (fun kv => CAttrEsc (fst kv) (snd kv)) ns
  ++ write_office_scripts ss ls ++ rest ++ [CEnd (lit "office:document-content")].

(** ** Reading *)

(** The scripts and listeners of the workbook; [add_event_listener] (workbook_.rs:474-476) is a put. *)
Definition scripts : Type := list script * amap listener.
(** read.rs:1889-1922 [read_event_listener]. *)
Definition listener_attr (kv : str * str) (l : listener) : res listener :=
  let '(Listener e la m ac h ty) := l in let '(n, v) := kv in
  if str_eqb n (lit "script:event-name") then Ok (Listener v la m ac h ty)
  else if str_eqb n (lit "script:language") then Ok (Listener e v m ac h ty)
  else if str_eqb n (lit "script:macro-name") then Ok (Listener e la v ac h ty)
  else if str_eqb n (lit "xlink:actuate") then let* x := parse_xactuate v in Ok (Listener e la m x h ty)
  else if str_eqb n (lit "xlink:href") then Ok (Listener e la m ac v ty)
  else if str_eqb n (lit "xlink:type") then let* x := parse_xtype v in Ok (Listener e la m ac h x)
  else Ok l.
Fixpoint listener_attrs (a : list (str * str)) (l : listener) : res listener :=
  match a with [] => Ok l | kv :: r => let* l' := listener_attr kv l in listener_attrs r l' end.
(** read.rs:1871-1886 [read_script]: the tree that was read. The attributes are a map, whose last value counts. *)
Definition script_of (x : xnode) : script :=
  match x with
  | XTag _ a c => Script (fold_left (fun v kv => if str_eqb (fst kv) (lit "script:language") then snd kv else v) a []) c
  | XText _ => Script [] []
  end.
(** read.rs:1827-1869 [read_scripts] and the part of read.rs:736-789 [read_ods_content] that gets there ([inside] tells which); [n] bounds the
    number of events. [read_xml] is told that the element has content even if it has none. What is outside is passed over, it is read by
    other functions. *)
Fixpoint read_scripts (n : nat) (inside : bool) (evs : list event) (b : scripts) : res scripts :=
  match n, evs with
  | _, [] => Ok b
  | O, _ => Err
  | S n', e :: r =>
      if inside then
        match e with
        | EEnd t => read_scripts n' (negb (str_eqb t t_scripts)) r b
        | EStart t a | EEmpty t a =>
            if str_eqb t t_script then let* (x, r') := read_xml t a false r in read_scripts n' true r' (fst b ++ [script_of x], snd b)
            else if str_eqb t t_listener then let* l := listener_attrs a listener0 in read_scripts n' true r (fst b, am_put (li_event l) l (snd b))
            else read_scripts n' true r b
        | _ => read_scripts n' true r b
        end
      else
        match e with
        | EStart t _ => read_scripts n' (str_eqb t t_scripts) r b
        | _ => read_scripts n' false r b
        end
  end.
Definition read_content (evs : list event) : res scripts := read_scripts (length evs) false evs ([], []).
