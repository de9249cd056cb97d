(** The workbook as a whole: the files it is written to, and the functions that read them and hand each part to the function for it. The
    parts themselves are in the other models. *)
From Verif Require Import Base OMap NumModel EnumModel XmlModel CellModel CellIoModel BookModel HeaderModel TableModel CloneModel.
From Verif Require Import StyleModel ValidModel ScriptModel MetaModel ConfigModel ViewModel.

(** workbook_.rs:75-140 [WorkBook]: version, namespaces by file, metadata, settings, scripts and listeners, default cell styles, fonts with
    styles, formats, page layouts and master pages, validations, sheets, other elements. Not here: the options derived from the settings
    (ViewModel), the manifest (PkgModel). In the code one map counts the automatic names of all families; each has its own key in it, so
    the validations can be kept apart. *)
Record workbook : Type := Work {
  wb_version : str; wb_ns : amap (amap str); wb_meta : meta; wb_config : citem; wb_scripts : scripts; wb_defaults : vtype -> option str;
  wb_styles : stylebook; wb_valids : book vbody; wb_sheets : list sheet; wb_extra : list xnode }.
Definition put_version v w := let '(Work _ n m c s d st va sh x) := w in Work v n m c s d st va sh x.
Definition put_ns n w := let '(Work v _ m c s d st va sh x) := w in Work v n m c s d st va sh x.
Definition put_meta m w := let '(Work v n _ c s d st va sh x) := w in Work v n m c s d st va sh x.
Definition put_config c w := let '(Work v n m _ s d st va sh x) := w in Work v n m c s d st va sh x.
Definition put_scripts s w := let '(Work v n m c _ d st va sh x) := w in Work v n m c s d st va sh x.
Definition put_styles st w := let '(Work v n m c s d _ va sh x) := w in Work v n m c s d st va sh x.
Definition put_valids va w := let '(Work v n m c s d st _ sh x) := w in Work v n m c s d st va sh x.
Definition put_sheets sh w := let '(Work v n m c s d st va _ x) := w in Work v n m c s d st va sh x.
Definition put_extra x w := let '(Work v n m c s d st va sh _) := w in Work v n m c s d st va sh x.
(** workbook_.rs:248-282 [new_empty]; [c] are the default settings, see [default_settings]. *)
Definition work0 (c : citem) : workbook := Work (lit "1.3") [] meta0 c ([], []) (fun _ => None) stylebook0 book0 [] [].

(** ** Namespaces: io/mod.rs:13-37 [NamespaceMap] *)

(** The names and values inserted before a file is written. *)
(** write.rs:217-316. *)
Definition ns_fods : amap str := [
  (lit "xmlns:office", lit "urn:oasis:names:tc:opendocument:xmlns:office:1.0");
  (lit "xmlns:ooo", lit "http://openoffice.org/2004/office");
  (lit "xmlns:fo", lit "urn:oasis:names:tc:opendocument:xmlns:xsl-fo-compatible:1.0");
  (lit "xmlns:xlink", lit "http://www.w3.org/1999/xlink");
  (lit "xmlns:config", lit "urn:oasis:names:tc:opendocument:xmlns:config:1.0");
  (lit "xmlns:dc", lit "http://purl.org/dc/elements/1.1/");
  (lit "xmlns:meta", lit "urn:oasis:names:tc:opendocument:xmlns:meta:1.0");
  (lit "xmlns:style", lit "urn:oasis:names:tc:opendocument:xmlns:style:1.0");
  (lit "xmlns:text", lit "urn:oasis:names:tc:opendocument:xmlns:text:1.0");
  (lit "xmlns:rpt", lit "http://openoffice.org/2005/report");
  (lit "xmlns:draw", lit "urn:oasis:names:tc:opendocument:xmlns:drawing:1.0");
  (lit "xmlns:dr3d", lit "urn:oasis:names:tc:opendocument:xmlns:dr3d:1.0");
  (lit "xmlns:svg", lit "urn:oasis:names:tc:opendocument:xmlns:svg-compatible:1.0");
  (lit "xmlns:chart", lit "urn:oasis:names:tc:opendocument:xmlns:chart:1.0");
  (lit "xmlns:table", lit "urn:oasis:names:tc:opendocument:xmlns:table:1.0");
  (lit "xmlns:number", lit "urn:oasis:names:tc:opendocument:xmlns:datastyle:1.0");
  (lit "xmlns:ooow", lit "http://openoffice.org/2004/writer");
  (lit "xmlns:oooc", lit "http://openoffice.org/2004/calc");
  (lit "xmlns:of", lit "urn:oasis:names:tc:opendocument:xmlns:of:1.2");
  (lit "xmlns:xforms", lit "http://www.w3.org/2002/xforms");
  (lit "xmlns:tableooo", lit "http://openoffice.org/2009/table");
  (lit "xmlns:calcext", lit "urn:org:documentfoundation:names:experimental:calc:xmlns:calcext:1.0");
  (lit "xmlns:drawooo", lit "http://openoffice.org/2010/draw");
  (lit "xmlns:loext", lit "urn:org:documentfoundation:names:experimental:office:xmlns:loext:1.0");
  (lit "xmlns:field", lit "urn:openoffice:names:experimental:ooo-ms-interop:xmlns:field:1.0");
  (lit "xmlns:math", lit "http://www.w3.org/1998/Math/MathML");
  (lit "xmlns:form", lit "urn:oasis:names:tc:opendocument:xmlns:form:1.0");
  (lit "xmlns:script", lit "urn:oasis:names:tc:opendocument:xmlns:script:1.0");
  (lit "xmlns:formx", lit "urn:openoffice:names:experimental:ooxml-odf-interop:xmlns:form:1.0");
  (lit "xmlns:dom", lit "http://www.w3.org/2001/xml-events");
  (lit "xmlns:xsd", lit "http://www.w3.org/2001/XMLSchema");
  (lit "xmlns:xsi", lit "http://www.w3.org/2001/XMLSchema-instance");
  (lit "xmlns:xhtml", lit "http://www.w3.org/1999/xhtml");
  (lit "xmlns:grddl", lit "http://www.w3.org/2003/g/data-view#");
  (lit "xmlns:css3t", lit "http://www.w3.org/TR/css3-text/");
  (lit "xmlns:presentation", lit "urn:oasis:names:tc:opendocument:xmlns:presentation:1.0")].
(** write.rs:740-754. *)
Definition ns_meta : amap str := [
  (lit "xmlns:meta", lit "urn:oasis:names:tc:opendocument:xmlns:meta:1.0");
  (lit "xmlns:office", lit "urn:oasis:names:tc:opendocument:xmlns:office:1.0")].
(** write.rs:912-927. *)
Definition ns_settings : amap str := [
  (lit "xmlns:office", lit "urn:oasis:names:tc:opendocument:xmlns:office:1.0");
  (lit "xmlns:ooo", lit "http://openoffice.org/2004/office");
  (lit "xmlns:config", lit "urn:oasis:names:tc:opendocument:xmlns:config:1.0")].
(** write.rs:1141-1229. *)
Definition ns_styles : amap str := [
  (lit "xmlns:meta", lit "urn:oasis:names:tc:opendocument:xmlns:meta:1.0");
  (lit "xmlns:office", lit "urn:oasis:names:tc:opendocument:xmlns:office:1.0");
  (lit "xmlns:fo", lit "urn:oasis:names:tc:opendocument:xmlns:xsl-fo-compatible:1.0");
  (lit "xmlns:ooo", lit "http://openoffice.org/2004/office");
  (lit "xmlns:xlink", lit "http://www.w3.org/1999/xlink");
  (lit "xmlns:dc", lit "http://purl.org/dc/elements/1.1/");
  (lit "xmlns:style", lit "urn:oasis:names:tc:opendocument:xmlns:style:1.0");
  (lit "xmlns:text", lit "urn:oasis:names:tc:opendocument:xmlns:text:1.0");
  (lit "xmlns:dr3d", lit "urn:oasis:names:tc:opendocument:xmlns:dr3d:1.0");
  (lit "xmlns:svg", lit "urn:oasis:names:tc:opendocument:xmlns:svg-compatible:1.0");
  (lit "xmlns:chart", lit "urn:oasis:names:tc:opendocument:xmlns:chart:1.0");
  (lit "xmlns:rpt", lit "http://openoffice.org/2005/report");
  (lit "xmlns:table", lit "urn:oasis:names:tc:opendocument:xmlns:table:1.0");
  (lit "xmlns:number", lit "urn:oasis:names:tc:opendocument:xmlns:datastyle:1.0");
  (lit "xmlns:ooow", lit "http://openoffice.org/2004/writer");
  (lit "xmlns:oooc", lit "http://openoffice.org/2004/calc");
  (lit "xmlns:of", lit "urn:oasis:names:tc:opendocument:xmlns:of:1.2");
  (lit "xmlns:tableooo", lit "http://openoffice.org/2009/table");
  (lit "xmlns:calcext", lit "urn:org:documentfoundation:names:experimental:calc:xmlns:calcext:1.0");
  (lit "xmlns:drawooo", lit "http://openoffice.org/2010/draw");
  (lit "xmlns:draw", lit "urn:oasis:names:tc:opendocument:xmlns:drawing:1.0");
  (lit "xmlns:loext", lit "urn:org:documentfoundation:names:experimental:office:xmlns:loext:1.0");
  (lit "xmlns:field", lit "urn:openoffice:names:experimental:ooo-ms-interop:xmlns:field:1.0");
  (lit "xmlns:math", lit "http://www.w3.org/1998/Math/MathML");
  (lit "xmlns:form", lit "urn:oasis:names:tc:opendocument:xmlns:form:1.0");
  (lit "xmlns:script", lit "urn:oasis:names:tc:opendocument:xmlns:script:1.0");
  (lit "xmlns:dom", lit "http://www.w3.org/2001/xml-events");
  (lit "xmlns:xhtml", lit "http://www.w3.org/1999/xhtml");
  (lit "xmlns:grddl", lit "http://www.w3.org/2003/g/data-view#");
  (lit "xmlns:css3t", lit "http://www.w3.org/TR/css3-text/");
  (lit "xmlns:presentation", lit "urn:oasis:names:tc:opendocument:xmlns:presentation:1.0")].
(** write.rs:1248-1343. *)
Definition ns_content : amap str := [
  (lit "xmlns:meta", lit "urn:oasis:names:tc:opendocument:xmlns:meta:1.0");
  (lit "xmlns:office", lit "urn:oasis:names:tc:opendocument:xmlns:office:1.0");
  (lit "xmlns:fo", lit "urn:oasis:names:tc:opendocument:xmlns:xsl-fo-compatible:1.0");
  (lit "xmlns:ooo", lit "http://openoffice.org/2004/office");
  (lit "xmlns:xlink", lit "http://www.w3.org/1999/xlink");
  (lit "xmlns:dc", lit "http://purl.org/dc/elements/1.1/");
  (lit "xmlns:style", lit "urn:oasis:names:tc:opendocument:xmlns:style:1.0");
  (lit "xmlns:text", lit "urn:oasis:names:tc:opendocument:xmlns:text:1.0");
  (lit "xmlns:draw", lit "urn:oasis:names:tc:opendocument:xmlns:drawing:1.0");
  (lit "xmlns:dr3d", lit "urn:oasis:names:tc:opendocument:xmlns:dr3d:1.0");
  (lit "xmlns:svg", lit "urn:oasis:names:tc:opendocument:xmlns:svg-compatible:1.0");
  (lit "xmlns:chart", lit "urn:oasis:names:tc:opendocument:xmlns:chart:1.0");
  (lit "xmlns:rpt", lit "http://openoffice.org/2005/report");
  (lit "xmlns:table", lit "urn:oasis:names:tc:opendocument:xmlns:table:1.0");
  (lit "xmlns:number", lit "urn:oasis:names:tc:opendocument:xmlns:datastyle:1.0");
  (lit "xmlns:ooow", lit "http://openoffice.org/2004/writer");
  (lit "xmlns:oooc", lit "http://openoffice.org/2004/calc");
  (lit "xmlns:of", lit "urn:oasis:names:tc:opendocument:xmlns:of:1.2");
  (lit "xmlns:tableooo", lit "http://openoffice.org/2009/table");
  (lit "xmlns:calcext", lit "urn:org:documentfoundation:names:experimental:calc:xmlns:calcext:1.0");
  (lit "xmlns:drawooo", lit "http://openoffice.org/2010/draw");
  (lit "xmlns:loext", lit "urn:org:documentfoundation:names:experimental:office:xmlns:loext:1.0");
  (lit "xmlns:field", lit "urn:openoffice:names:experimental:ooo-ms-interop:xmlns:field:1.0");
  (lit "xmlns:math", lit "http://www.w3.org/1998/Math/MathML");
  (lit "xmlns:form", lit "urn:oasis:names:tc:opendocument:xmlns:form:1.0");
  (lit "xmlns:script", lit "urn:oasis:names:tc:opendocument:xmlns:script:1.0");
  (lit "xmlns:dom", lit "http://www.w3.org/2001/xml-events");
  (lit "xmlns:xforms", lit "http://www.w3.org/2002/xforms");
  (lit "xmlns:xsd", lit "http://www.w3.org/2001/XMLSchema");
  (lit "xmlns:xsi", lit "http://www.w3.org/2001/XMLSchema-instance");
  (lit "xmlns:formx", lit "urn:openoffice:names:experimental:ooxml-odf-interop:xmlns:form:1.0");
  (lit "xmlns:xhtml", lit "http://www.w3.org/1999/xhtml");
  (lit "xmlns:grddl", lit "http://www.w3.org/2003/g/data-view#");
  (lit "xmlns:css3t", lit "http://www.w3.org/TR/css3-text/");
  (lit "xmlns:presentation", lit "urn:oasis:names:tc:opendocument:xmlns:presentation:1.0")].

(** The map of the file called [file], with what is inserted before writing. *)
Definition ns_of (file : str) (w : workbook) : amap str := match am_get file (wb_ns w) with Some m => m | None => [] end.
Definition put_all (l m : amap str) : amap str := fold_left (fun m kv => am_put (fst kv) (snd kv) m) l m.
(** The attributes of the root element: write.rs:721-733 [write_xmlns] and the version after it. The order of a hash map is arbitrary, [l] is
    the map in some order. Names that came from the code are written without escaping the value; these values have nothing to escape. *)
Definition root_attrs (w : workbook) (l : amap str) : attrs := l ++ [(lit "office:version", wb_version w)].
Definition mimetype : str := lit "application/vnd.oasis.opendocument.spreadsheet".

(** ** Writing *)

Definition t_body : str := lit "office:body".
Definition t_spreadsheet : str := lit "office:spreadsheet".
Definition prelude_tags : list str :=
  [lit "table:calculation-settings"; lit "table:label-ranges"; lit "table:tracked-changes"; lit "text:alphabetical-index-auto-mark-file";
   lit "text:dde-connection-decls"; lit "text:sequence-decls"; lit "text:user-field-decls"; lit "text:variable-decls"].
Definition epilogue_tags : list str :=
  [lit "table:consolidation"; lit "table:data-pilot-tables"; lit "table:database-ranges"; lit "table:dde-links"; lit "table:named-expressions";
   lit "calcext:conditional-formats"].
(** xmltree.rs: the name of a tag; the extras are tags only. *)
Definition tag_name (x : xnode) : str := match x with XTag n _ _ => n | XText _ => [] end.
Definition named_in (l : list str) (x : xnode) : bool := existsb (str_eqb (tag_name x)) l.
Fixpoint sheets_calls (ds : vtype -> option str) (l : list sheet) : res (list call) :=
  match l with [] => Ok [] | s :: r => let* a := write_sheet ds s in let* b := sheets_calls ds r in Ok (a ++ b) end.
(** write.rs:1363-1403 [write_office_body]; the validations in the order of their map. *)
Definition write_body (w : workbook) : res (list call) :=
  let* v := write_validations (map snd (bk_styles (wb_valids w) FValidation)) in
  let* s := sheets_calls (wb_defaults w) (wb_sheets w) in
  Ok ([CElem t_body; CElem t_spreadsheet] ++ flat_map write_node (filter (named_in prelude_tags) (wb_extra w)) ++ v ++ s
      ++ flat_map write_node (filter (named_in epilogue_tags) (wb_extra w)) ++ [CEnd t_spreadsheet; CEnd t_body]).
Definition scripts_calls (w : workbook) : list call := write_office_scripts (fst (wb_scripts w)) (map snd (snd (wb_scripts w))).
(** write.rs:1247-1361 [write_ods_content]. *)
Definition content_calls (w : workbook) (l : amap str) : res (list call) :=
  let* b := write_body w in content_doc (root_attrs w l) (scripts_calls w) (wb_styles w) b.
(** write.rs:215-340 [write_fods_content] after [convert]. *)
Definition fods_calls (w : workbook) (l : amap str) : res (list call) :=
  let* s := write_settings (wb_config w) in
  let* b := write_body w in
  fods_doc (root_attrs w l ++ [(lit "office:mimetype", mimetype)]) (write_office_meta (wb_meta w) ++ s ++ scripts_calls w) (wb_styles w) b.
(** write.rs:740-768, 912-941, 1140-1245: the other three files. *)
Definition meta_calls (w : workbook) (l : amap str) : list call := write_ods_meta (root_attrs w l) (wb_meta w).
Definition settings_calls (w : workbook) (l : amap str) : res (list call) := write_ods_settings (root_attrs w l) (wb_config w).
Definition styles_calls (w : workbook) (l : amap str) : res (list call) := styles_doc (root_attrs w l) (wb_styles w).
(** write.rs:412-417 [sanity_checks]; the calculations before writing (write.rs:420-428) are in MetaModel, ViewModel and HeaderModel. *)
Definition writable_book (w : workbook) : res unit := match wb_sheets w with [] => Err | _ => Ok tt end.
(** The files of a package, as far as they are about the workbook (write.rs:344-407), and the flat file (write.rs:153-163), as text. Each
    argument is the map of the namespaces of a file, in the order of writing. *)
Record files : Type := Files { fl_meta : str; fl_settings : str; fl_styles : str; fl_content : str }.
Definition write_ods (w : workbook) (lm lse lst lc : amap str) : res files :=
  let* _ := writable_book w in
  let* se := settings_calls w lse in let* st := styles_calls w lst in let* c := content_calls w lc in
  Ok (Files (render false (meta_calls w lm)) (render false se) (render false st) (render false c)).
Definition write_fods (w : workbook) (l : amap str) : res str :=
  let* _ := writable_book w in let* c := fods_calls w l in Ok (render true c).

(** ** Reading *)

(** read.rs:874-911 [read_namespaces_and_version]. *)
Fixpoint starts_with (p s : str) : bool :=
  match p, s with [], _ => true | c :: p', d :: s' => (c =? d) && starts_with p' s' | _, [] => false end.
Definition root_attr (s : option str * amap str) (kv : str * str) : res (option str * amap str) :=
  if str_eqb (fst kv) (lit "office:version") then Ok (Some (snd kv), snd s)
  else if starts_with (lit "xmlns:") (fst kv) then Ok (fst s, am_put (fst kv) (snd kv) (snd s))
  else if str_eqb (fst kv) (lit "office:mimetype") then if str_eqb (snd kv) mimetype then Ok s else Err
  else Ok s.
Fixpoint root_fold (s : option str * amap str) (a : attrs) : res (option str * amap str) :=
  match a with [] => Ok s | kv :: r => let* s' := root_attr s kv in root_fold s' r end.
Definition read_root (a : attrs) : res (option str * amap str) := root_fold (None, []) a.
(** The root of a file; content.xml and the flat file set the version. *)
Definition on_root (file : str) (versioned : bool) (w : workbook) (a : attrs) : res workbook :=
  let* (v, m) := read_root a in
  let w := put_ns (am_put file m (wb_ns w)) w in
  Ok (match v with Some v => if versioned then put_version v w else w | None => w end).

(** read.rs:1827-1869 [read_scripts], as part of a file. *)
Definition scripts_step (b : scripts) (e : event) (r : list event) : res (scripts * list event) :=
  match on_tag e with
  | Some (n, a, _) =>
      if str_eqb n t_script then let* (x, r') := read_xml n a false r in Ok ((fst b ++ [script_of x], snd b), r')
      else if str_eqb n t_listener then let* l := listener_attrs a listener0 in Ok ((fst b, am_put (li_event l) l (snd b)), r)
      else Ok (b, r)
  | None => Ok (b, r)
  end.
(** read.rs:3801-3974 [read_office_meta] and 4267-4298 [read_office_settings], as parts of a file: up to the end tag. *)
Fixpoint meta_loop (s : mstate) (evs : list event) : res (meta * list event) :=
  match evs with
  | [] => Err
  | e :: r => let* s' := mstep e s in match s' with MOutside m => Ok (m, r) | _ => meta_loop s' r end
  end.
Fixpoint config_loop (s : cstate) (evs : list event) : res (option citem * list event) :=
  match evs with
  | [] => Err
  | e :: r => let* s' := cstep e s in match s' with COutside c => Ok (c, r) | _ => config_loop s' r end
  end.
(** read.rs:791-868 [read_office_body]; [ign] is the option that drops empty cells. *)
Definition body_step (ign : bool) (w : workbook) (e : event) (r : list event) : res (workbook * list event) :=
  match on_tag e with
  | Some (n, a, empty) =>
      if negb empty && str_eqb n t_valids then let* (b, r') := read_valids (length r) r valid0 (wb_valids w) in Ok (put_valids b w, r')
      else if negb empty && str_eqb n t_table then let* (s, r') := read_table ign (e :: r) in Ok (put_sheets (wb_sheets w ++ [s]) w, r')
      else if existsb (str_eqb n) (prelude_tags ++ epilogue_tags) then let* (x, r') := read_xml n a empty r in Ok (put_extra (wb_extra w ++ [x]) w, r')
      else Ok (w, r)
  | None => Ok (w, r)
  end.
Definition read_office_body (ign : bool) (w : workbook) (r : list event) : res (workbook * list event) :=
  let* (p, r') := reading (length r) (Some t_body) (body_step ign) w r in Ok (snd p, r').
Definition style_sections : list str := [t_fonts; t_office_styles; t_automatic; t_masters].
(** read.rs:736-789 [read_ods_content]. *)
Definition content_step (ign : bool) (w : workbook) (e : event) (r : list event) : res (workbook * list event) :=
  match e with
  | EStart n a =>
      if str_eqb n (lit "office:document-content") then let* w' := on_root (lit "content.xml") true w a in Ok (w', r)
      else if str_eqb n t_scripts then let* (p, r') := reading (length r) (Some t_scripts) scripts_step (wb_scripts w) r in Ok (put_scripts (snd p) w, r')
      else if existsb (str_eqb n) style_sections then let* (b, r') := doc_step OContent (wb_styles w) e r in Ok (put_styles b w, r')
      else if str_eqb n t_body then read_office_body ign w r
      else Ok (w, r)
  | _ => Ok (w, r)
  end.
(** read.rs:260-322 [read_fods_impl]. *)
Definition fods_step (ign : bool) (w : workbook) (e : event) (r : list event) : res (workbook * list event) :=
  match e with
  | EStart n a =>
      if str_eqb n (lit "office:document") then let* w' := on_root (lit "fods.xml") true w a in Ok (w', r)
      else if str_eqb n t_meta then let* (m, r') := meta_loop (MInside (wb_meta w)) r in Ok (put_meta m w, r')
      else if str_eqb n t_settings then
        let* (c, r') := config_loop (CInside None None [CFrame None None cm_new 0]) r in
        Ok (match c with Some c => put_config c w | None => w end, r')
      else if str_eqb n t_scripts then let* (p, r') := reading (length r) (Some t_scripts) scripts_step (wb_scripts w) r in Ok (put_scripts (snd p) w, r')
      else if existsb (str_eqb n) style_sections then let* (b, r') := doc_step OContent (wb_styles w) e r in Ok (put_styles b w, r')
      else if str_eqb n t_body then read_office_body ign w r
      else Ok (w, r)
  | _ => Ok (w, r)
  end.
(** read.rs:324-354 [read_fods_impl_content_only]. *)
Definition fods_only_step (ign : bool) (w : workbook) (e : event) (r : list event) : res (workbook * list event) :=
  match e with EStart n _ => if str_eqb n t_body then read_office_body ign w r else Ok (w, r) | _ => Ok (w, r) end.
(** read.rs:3631-3672 [read_ods_styles], 3765-3799 [read_ods_metadata], 4230-4264 [read_ods_settings]. *)
Definition styles_file_step (w : workbook) (e : event) (r : list event) : res (workbook * list event) :=
  match e with
  | EStart n a =>
      if str_eqb n (lit "office:document-styles") then let* w' := on_root (lit "styles.xml") false w a in Ok (w', r)
      else if existsb (str_eqb n) style_sections then let* (b, r') := doc_step OStyles (wb_styles w) e r in Ok (put_styles b w, r')
      else Ok (w, r)
  | _ => Ok (w, r)
  end.
Definition meta_file_step (w : workbook) (e : event) (r : list event) : res (workbook * list event) :=
  match e with
  | EStart n a =>
      if str_eqb n (lit "office:document-meta") then let* w' := on_root (lit "meta.xml") false w a in Ok (w', r)
      else if str_eqb n t_meta then let* (m, r') := meta_loop (MInside (wb_meta w)) r in Ok (put_meta m w, r')
      else Ok (w, r)
  | _ => Ok (w, r)
  end.
Definition settings_file_step (w : workbook) (e : event) (r : list event) : res (workbook * list event) :=
  match e with
  | EStart n a =>
      if str_eqb n (lit "office:document-settings") then let* w' := on_root (lit "settings.xml") false w a in Ok (w', r)
      else if str_eqb n t_settings then
        let* (c, r') := config_loop (CInside None None [CFrame None None cm_new 0]) r in
        Ok (match c with Some c => put_config c w | None => w end, r')
      else Ok (w, r)
  | _ => Ok (w, r)
  end.
(** Each of them reads to the end of the file. *)
Definition read_file (step : workbook -> event -> list event -> res (workbook * list event)) (w : workbook) (text : str) : res workbook :=
  let* evs := read_events text in let* (p, _) := reading (length evs) None step w evs in Ok (snd p).
(** read.rs:499-509 [calculations]. *)
Fixpoint calc_sheets (rep : bool) (l : list sheet) : res (list sheet) :=
  match l with [] => Ok [] | s :: r => let* s' := calculations rep s in let* r' := calc_sheets rep r in Ok (s' :: r') end.
Definition calc_book (rep : bool) (w : workbook) : res workbook := let* l := calc_sheets rep (wb_sheets w) in Ok (put_sheets l w).
(** read.rs:357-410 [read_ods_impl] without the manifest and [calc_derived]; [ign] and [rep] are the options. All files are there. *)
Definition read_ods (ign rep : bool) (c0 : citem) (f : files) : res workbook :=
  let* w := read_file meta_file_step (work0 c0) (fl_meta f) in
  let* w := read_file settings_file_step w (fl_settings f) in
  let* w := read_file styles_file_step w (fl_styles f) in
  let* w := read_file (content_step ign) w (fl_content f) in
  calc_book rep w.
(** read.rs:413-428 [read_ods_impl_content_only]. *)
Definition read_ods_only (ign rep : bool) (c0 : citem) (f : files) : res workbook :=
  let* w := read_file (content_step ign) (work0 c0) (fl_content f) in calc_book rep w.
Definition read_fods (ign rep : bool) (c0 : citem) (text : str) : res workbook :=
  let* w := read_file (fods_step ign) (work0 c0) text in calc_book rep w.
Definition read_fods_only (ign rep : bool) (c0 : citem) (text : str) : res workbook :=
  let* w := read_file (fods_only_step ign) (work0 c0) text in calc_book rep w.
