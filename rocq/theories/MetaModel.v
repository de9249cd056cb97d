(** Document metadata (metadata.rs), its text form (meta.xml) and its reading. *)
From Verif Require Import Base CellModel NumModel EnumModel XmlModel.

(** metadata.rs:93-105, 130-142, 165-183, 193-203. Durations are in nanoseconds. *)
Record mtemplate : Type := MTemplate { mt_date : option datetime; mt_actuate : option xactuate; mt_href : option str; mt_title : option str; mt_type : option xtype }.
Record mreload : Type := MReload { ml_delay : option Z; ml_actuate : option xactuate; ml_href : option str; ml_show : option xshow; ml_type : option xtype }.
Record mlinks : Type := MLinks { mh_frame : option str; mh_show : option xshow }.
Record mstats : Type := MStats { ms_cells : N; ms_objects : N; ms_oles : N; ms_tables : N }.
(** metadata.rs:224-236; floats are carried as their text. *)
Inductive mvalue : Type := MBool (b : bool) | MDate (d : datetime) | MFloat (t : str) | MTime (ns : Z) | MString (s : str).
(** metadata.rs:206-221. *)
Definition user0 : str * mvalue := ([], MString []).

(** metadata.rs:9-69 [Metadata]; a user defined value is its name and its value. *)
Record meta : Type := Meta {
  m_generator : str; m_title : str; m_description : str; m_subject : str; m_keyword : str; m_initial : str; m_creator : str; m_printed : str;
  m_created : option datetime; m_date : option datetime; m_print : option datetime; m_language : str; m_cycles : N; m_duration : Z;
  m_template : mtemplate; m_reload : mreload; m_links : mlinks; m_stats : mstats; m_user : list (str * mvalue) }.
Definition template0 : mtemplate := MTemplate None None None None None.
Definition reload0 : mreload := MReload None None None None None.
Definition links0 : mlinks := MLinks None None.
Definition stats0 : mstats := MStats 0 0 0 0.
Definition meta0 : meta := Meta [] [] [] [] [] [] [] [] None None None [] 0 0 template0 reload0 links0 stats0 [].

(** The fields that are elements with a text. *)
Inductive field : Type :=
| FGenerator | FTitle | FDescription | FSubject | FKeyword | FInitial | FCreator | FPrinted
| FCreated | FDate | FPrint | FLanguage | FCycles | FDuration.
Definition all_fields : list field :=
  [FGenerator; FTitle; FDescription; FSubject; FKeyword; FInitial; FCreator; FPrinted; FCreated; FDate; FPrint; FLanguage; FCycles; FDuration].
(** The names in write.rs:773-815 are those in read.rs:3815-3930. *)
Definition field_tag (f : field) : str :=
  match f with
  | FGenerator => lit "meta:generator" | FTitle => lit "dc:title" | FDescription => lit "dc:description" | FSubject => lit "dc:subject"
  | FKeyword => lit "meta:keyword" | FInitial => lit "meta:initial-creator" | FCreator => lit "dc:creator" | FPrinted => lit "meta:printed-by"
  | FCreated => lit "meta:creation-date" | FDate => lit "dc:date" | FPrint => lit "meta:print-date" | FLanguage => lit "dc:language"
  | FCycles => lit "meta:editing-cycles" | FDuration => lit "meta:editing-duration"
  end.
Definition t_meta : str := lit "office:meta".
Definition t_template : str := lit "meta:template".
Definition t_links : str := lit "meta:hyperlink-behaviour".
Definition t_stats : str := lit "meta:document-statistic".
Definition t_user : str := lit "meta:user-defined".

(** ** Writing *)

(** write.rs:545-557 [calc_metadata]: [cells] are the numbers of cells of the sheets, each below 2^32. *)
Fixpoint sum32 (acc : N) (l : list N) : res N :=
  match l with [] => Ok acc | n :: r => let* a := add32 acc n in sum32 a r end.
Definition calc_metadata (version : str) (cells : list N) (m : meta) : res meta :=
  let* n := sum32 0 (map as_u32 cells) in
  Ok (Meta (lit "spreadsheet-ods " ++ version) (m_title m) (m_description m) (m_subject m) (m_keyword m) (m_initial m) (m_creator m) (m_printed m)
    (m_created m) (m_date m) (m_print m) (m_language m) (m_cycles m) (m_duration m) (m_template m) (m_reload m) (m_links m)
    (MStats n (ms_objects (m_stats m)) (ms_oles (m_stats m)) (as_u32 (N.of_nat (length cells)))) (m_user m)).

Definition text_calls (n t : str) : list call := match t with [] => [] | _ => [CElemTextEsc n t] end.
Definition date_calls (n : str) (d : option datetime) : list call := match d with Some d => [CElemText n (format_datetime d)] | None => [] end.
(** write.rs:773-815: one field. The generator is written without escaping; whole seconds decide about the duration. *)
Definition field_calls (m : meta) (f : field) : list call :=
  match f with
  | FGenerator => [CElemText (field_tag f) (m_generator m)]
  | FTitle => text_calls (field_tag f) (m_title m)
  | FDescription => text_calls (field_tag f) (m_description m)
  | FSubject => text_calls (field_tag f) (m_subject m)
  | FKeyword => text_calls (field_tag f) (m_keyword m)
  | FInitial => text_calls (field_tag f) (m_initial m)
  | FCreator => text_calls (field_tag f) (m_creator m)
  | FPrinted => text_calls (field_tag f) (m_printed m)
  | FCreated => date_calls (field_tag f) (m_created m)
  | FDate => date_calls (field_tag f) (m_date m)
  | FPrint => date_calls (field_tag f) (m_print m)
  | FLanguage => text_calls (field_tag f) (m_language m)
  | FCycles => if 0 <? m_cycles m then [CElemText (field_tag f) (show_N (m_cycles m))] else []
  | FDuration => if (0 <? Z.quot (m_duration m) 1000000000)%Z then [CElemText (field_tag f) (format_duration2 (m_duration m))] else []
  end.
Definition attr_if {A} (n : str) (show : A -> str) (o : option A) : list call := match o with Some v => [CAttr n (show v)] | None => [] end.
Definition attr_esc_if (n : str) (o : option str) : list call := match o with Some v => [CAttrEsc n v] | None => [] end.
(** An element without content, unless all its attributes are missing. *)
Definition empty_calls (n : str) (attrs : list call) : list call := match attrs with [] => [] | _ => CEmpty n :: attrs end.
(** write.rs:817-834, 836-853 (the name has an underscore there), 855-863, 865-881. *)
Definition template_calls (t : mtemplate) : list call :=
  empty_calls t_template (attr_if (lit "meta:date") format_datetime (mt_date t) ++ attr_if (lit "xlink:actuate") show_xactuate (mt_actuate t)
    ++ attr_esc_if (lit "xlink:href") (mt_href t) ++ attr_esc_if (lit "xlink:title") (mt_title t) ++ attr_if (lit "xlink:type") show_xtype (mt_type t)).
Definition reload_calls (t : mreload) : list call :=
  empty_calls (lit "meta:auto_reload") (attr_if (lit "meta:delay") format_duration2 (ml_delay t) ++ attr_if (lit "xlink:actuate") show_xactuate (ml_actuate t)
    ++ attr_esc_if (lit "xlink:href") (ml_href t) ++ attr_if (lit "xlink:show") show_xshow (ml_show t) ++ attr_if (lit "xlink:type") show_xtype (ml_type t)).
Definition links_calls (t : mlinks) : list call :=
  empty_calls t_links (attr_esc_if (lit "office:target-frame-name") (mh_frame t) ++ attr_if (lit "xlink:show") show_xshow (mh_show t)).
Definition stats_calls (t : mstats) : list call :=
  [CEmpty t_stats; CAttr (lit "meta:table-count") (show_N (ms_tables t)); CAttr (lit "meta:cell-count") (show_N (ms_cells t));
   CAttr (lit "meta:object-count") (show_N (ms_objects t)); CAttr (lit "meta:ole-object-count") (show_N (ms_oles t))].
(** write.rs:883-906. *)
Definition user_type (v : mvalue) : list call :=
  match v with
  | MBool _ => [CAttr (lit "meta:value-type") (lit "boolean")] | MDate _ => [CAttr (lit "meta:value-type") (lit "date")]
  | MFloat _ => [CAttr (lit "meta:value-type") (lit "float")] | MTime _ => [CAttr (lit "meta:value-type") (lit "time")]
  | MString _ => []
  end.
Definition user_text (v : mvalue) : call :=
  match v with
  | MBool b => CText (if b then lit "true" else lit "false") | MDate d => CText (format_datetime d) | MFloat t => CText t
  | MTime ns => CText (format_duration2 ns) | MString s => CTextEsc s
  end.
Definition user_calls (u : str * mvalue) : list call :=
  [CElem t_user; CAttr (lit "meta:name") (fst u)] ++ user_type (snd u) ++ [user_text (snd u); CEnd t_user].
(** write.rs:770-910 [write_office_meta]. *)
Definition write_office_meta (m : meta) : list call :=
  CElem t_meta :: flat_map (field_calls m) all_fields
  ++ template_calls (m_template m) ++ reload_calls (m_reload m) ++ links_calls (m_links m) ++ stats_calls (m_stats m)
  ++ flat_map user_calls (m_user m) ++ [CEnd t_meta].
(** write.rs:740-768; [ns] are the namespaces and the version. *)
Definition write_ods_meta (ns : list (str * str)) (m : meta) : list call :=
  [CDtd (lit "UTF-8"); CElem (lit "office:document-meta")] ++ map (fun kv => CAttrEsc (fst kv) (snd kv)) ns
  ++ write_office_meta m ++ [CEnd (lit "office:document-meta")].

(** ** Reading *)

Definition set_field (f : field) (s : str) (m : meta) : res meta :=
  let '(Meta ge ti de su ke ini cr pr cd da pd la cy du te re li st us) := m in
  let date := match s with [] => Ok None | _ => let* d := parse_datetime s in Ok (Some d) end in
  match f with
  | FGenerator => Ok (Meta s ti de su ke ini cr pr cd da pd la cy du te re li st us)
  | FTitle => Ok (Meta ge s de su ke ini cr pr cd da pd la cy du te re li st us)
  | FDescription => Ok (Meta ge ti s su ke ini cr pr cd da pd la cy du te re li st us)
  | FSubject => Ok (Meta ge ti de s ke ini cr pr cd da pd la cy du te re li st us)
  | FKeyword => Ok (Meta ge ti de su s ini cr pr cd da pd la cy du te re li st us)
  | FInitial => Ok (Meta ge ti de su ke s cr pr cd da pd la cy du te re li st us)
  | FCreator => Ok (Meta ge ti de su ke ini s pr cd da pd la cy du te re li st us)
  | FPrinted => Ok (Meta ge ti de su ke ini cr s cd da pd la cy du te re li st us)
  | FCreated => let* d := date in Ok (Meta ge ti de su ke ini cr pr d da pd la cy du te re li st us)
  | FDate => let* d := date in Ok (Meta ge ti de su ke ini cr pr cd d pd la cy du te re li st us)
  | FPrint => let* d := date in Ok (Meta ge ti de su ke ini cr pr cd da d la cy du te re li st us)
  | FLanguage => Ok (Meta ge ti de su ke ini cr pr cd da pd s cy du te re li st us)
  | FCycles => let* n := match s with [] => Ok 0 | _ => parse_u32 s end in Ok (Meta ge ti de su ke ini cr pr cd da pd la n du te re li st us)
  | FDuration => let* d := match s with [] => Ok 0%Z | _ => parse_duration s end in Ok (Meta ge ti de su ke ini cr pr cd da pd la cy d te re li st us)
  end.
Definition set_template te m := let '(Meta ge ti de su ke ini cr pr cd da pd la cy du _ re li st us) := m in Meta ge ti de su ke ini cr pr cd da pd la cy du te re li st us.
Definition set_reload re m := let '(Meta ge ti de su ke ini cr pr cd da pd la cy du te _ li st us) := m in Meta ge ti de su ke ini cr pr cd da pd la cy du te re li st us.
Definition set_links li m := let '(Meta ge ti de su ke ini cr pr cd da pd la cy du te re _ st us) := m in Meta ge ti de su ke ini cr pr cd da pd la cy du te re li st us.
Definition set_stats st m := let '(Meta ge ti de su ke ini cr pr cd da pd la cy du te re li _ us) := m in Meta ge ti de su ke ini cr pr cd da pd la cy du te re li st us.
Definition add_user u m := let '(Meta ge ti de su ke ini cr pr cd da pd la cy du te re li st us) := m in Meta ge ti de su ke ini cr pr cd da pd la cy du te re li st (us ++ [u]).

(** The loops over attributes. *)
Fixpoint fold_attrs {A} (step : str * str -> A -> res A) (l : list (str * str)) (a : A) : res A :=
  match l with [] => Ok a | kv :: r => let* a' := step kv a in fold_attrs step r a' end.
(** read.rs:3976-4012. *)
Definition template_attr (kv : str * str) (t : mtemplate) : res mtemplate :=
  let '(MTemplate d a h ti ty) := t in let '(n, v) := kv in
  if str_eqb n (lit "meta:date") then let* x := parse_datetime v in Ok (MTemplate (Some x) a h ti ty)
  else if str_eqb n (lit "xlink:actuate") then let* x := parse_xactuate v in Ok (MTemplate d (Some x) h ti ty)
  else if str_eqb n (lit "xlink:href") then Ok (MTemplate d a (Some v) ti ty)
  else if str_eqb n (lit "xlink:title") then Ok (MTemplate d a h (Some v) ty)
  else if str_eqb n (lit "xlink:type") then let* x := parse_xtype v in Ok (MTemplate d a h ti (Some x))
  else Ok t.
(** read.rs:4014-4052. *)
Definition reload_attr (kv : str * str) (t : mreload) : res mreload :=
  let '(MReload d a h s ty) := t in let '(n, v) := kv in
  if str_eqb n (lit "meta:delay") then let* x := parse_duration v in Ok (MReload (Some x) a h s ty)
  else if str_eqb n (lit "xlink:actuate") then let* x := parse_xactuate v in Ok (MReload d (Some x) h s ty)
  else if str_eqb n (lit "xlink:href") then Ok (MReload d a (Some v) s ty)
  else if str_eqb n (lit "xlink:show") then let* x := parse_xshow v in Ok (MReload d a h (Some x) ty)
  else if str_eqb n (lit "xlink:type") then let* x := parse_xtype v in Ok (MReload d a h s (Some x))
  else Ok t.
(** read.rs:4054-4082 (the name lacks a hyphen there). *)
Definition links_attr (kv : str * str) (t : mlinks) : res mlinks :=
  let '(MLinks f s) := t in let '(n, v) := kv in
  if str_eqb n (lit "office:targetframe-name") then Ok (MLinks (Some v) s)
  else if str_eqb n (lit "xlink:show") then let* x := parse_xshow v in Ok (MLinks f (Some x))
  else Ok t.
(** read.rs:4084-4119. *)
Definition stats_attr (kv : str * str) (t : mstats) : res mstats :=
  let '(MStats c o e ta) := t in let '(n, v) := kv in
  if str_eqb n (lit "meta:cell-count") then let* x := parse_u32 v in Ok (MStats x o e ta)
  else if str_eqb n (lit "meta:object-count") then let* x := parse_u32 v in Ok (MStats c x e ta)
  else if str_eqb n (lit "meta:ole-object-count") then let* x := parse_u32 v in Ok (MStats c o x ta)
  else if str_eqb n (lit "meta:table-count") then let* x := parse_u32 v in Ok (MStats c o e x)
  else Ok t.
(** read.rs:4126-4147: name and value type. *)
Definition user_attr (kv : str * str) (t : str * option str) : res (str * option str) :=
  let '(n, v) := kv in
  if str_eqb n (lit "meta:name") then Ok (v, snd t)
  else if str_eqb n (lit "meta:value-type") then Ok (fst t, Some v)
  else Ok t.
(** read.rs:4161-4169: every piece of text replaces the value. *)
Definition user_value (ty : option str) (s : str) : res mvalue :=
  let is n := match ty with Some t => str_eqb t n | None => false end in
  if is (lit "boolean") then let* b := parse_bool s in Ok (MBool b)
  else if is (lit "date") then let* d := parse_datetime s in Ok (MDate d)
  else if is (lit "float") then let* f := parse_f64 s in Ok (MFloat f)
  else if is (lit "time") then let* d := parse_duration s in Ok (MTime d)
  else Ok (MString s).

Inductive mstate : Type :=
| MOutside (m : meta) | MInside (m : meta)
| MText (m : meta) (n : str) (f : field) (t : str)                   (* read_metadata_value, read.rs:4186-4228 *)
| MUser (m : meta) (n : str) (u : str * mvalue) (ty : option str).   (* read_metadata_user_defined, read.rs:4121-4183 *)
(** read.rs:3801-3974 [read_office_meta], started from 3765-3799. Elements without content are skipped (3959), references are
    not looked at in user defined values. The end of the file inside cannot come, [read_events] has checked the nesting. *)
Definition mstep (e : event) (s : mstate) : res mstate :=
  match s with
  | MOutside m => match e with EStart n _ => if str_eqb n t_meta then Ok (MInside m) else Ok s | _ => Ok s end
  | MInside m =>
      match e with
      | EEnd n => if str_eqb n t_meta then Ok (MOutside m) else Ok s
      | EStart n a =>
          match find (fun f => str_eqb (field_tag f) n) all_fields with
          | Some f => Ok (MText m n f [])
          | None =>
              if str_eqb n t_template then let* t := fold_attrs template_attr a template0 in Ok (MInside (set_template t m))
              else if str_eqb n (lit "meta:auto-reload") then let* t := fold_attrs reload_attr a reload0 in Ok (MInside (set_reload t m))
              else if str_eqb n t_links then let* t := fold_attrs links_attr a links0 in Ok (MInside (set_links t m))
              else if str_eqb n t_stats then let* t := fold_attrs stats_attr a stats0 in Ok (MInside (set_stats t m))
              else if str_eqb n t_user then let* t := fold_attrs user_attr a ([], None) in Ok (MUser m n (fst t, snd user0) (snd t))
              else Ok s
          end
      | _ => Ok s
      end
  | MText m n f t =>
      match e with
      | EEnd n' => if str_eqb n' n then let* m' := set_field f t m in Ok (MInside m') else Ok s
      | EText x => Ok (MText m n f (t ++ x))
      | ERef x => let* v := entity x in Ok (MText m n f (t ++ v))
      | _ => Ok s
      end
  | MUser m n u ty =>
      match e with
      | EEnd n' => if str_eqb n' n then Ok (MInside (add_user u m)) else Ok s
      | EText x => let* v := user_value ty x in Ok (MUser m n (fst u, v) ty)
      | _ => Ok s
      end
  end.
Fixpoint mrun (evs : list event) (s : mstate) : res mstate :=
  match evs with [] => Ok s | e :: r => let* s' := mstep e s in mrun r s' end.
Definition read_meta (evs : list event) : res meta :=
  let* s := mrun evs (MOutside meta0) in match s with MOutside m => Ok m | _ => Err end.
