(** The manifest and the parts of the zip archive an .ods file consists of. *)
From Verif Require Import Base XmlModel BookModel.

(** manifest.rs:9-19. *)
Record entry : Type := Entry { en_path : str; en_version : option str; en_type : str; en_data : option str }.
(** workbook_.rs:96: a hash map. The order of the list is the order in which the map is gone through. *)
Definition manifest : Type := amap entry.
(** manifest.rs:33-40 [new], 22-30 [default], 57-59 [is_dir]. *)
Definition plain_entry (path ty : str) : entry := Entry path None ty None.
Definition entry0 : entry := Entry [] None [] None.
Definition ends_slash (s : str) : bool := last s 0 =? c_slash.
Definition is_dir (e : entry) : bool := ends_slash (en_path e).
(** workbook_.rs:1146-1148. *)
Definition add_manifest (e : entry) (m : manifest) : manifest := am_put (en_path e) e m.

Definition p_root : str := [c_slash].
Definition p_rdf : str := lit "manifest.rdf".
Definition p_styles : str := lit "styles.xml".
Definition p_meta : str := lit "meta.xml".
Definition p_content : str := lit "content.xml".
Definition p_settings : str := lit "settings.xml".
Definition p_mime : str := lit "mimetype".
Definition p_inf : str := lit "META-INF".
Definition p_manifest : str := lit "META-INF/manifest.xml".
Definition ods_type : str := lit "application/vnd.oasis.opendocument.spreadsheet".
Definition own_parts : list str := [p_root; p_settings; p_styles; p_content; p_meta].
Definition is_own (p : str) : bool := existsb (str_eqb p) own_parts.

(** write.rs:654-692 [create_manifest_rdf]. *)
Definition rdf_calls : list call :=
  [CDtd (lit "UTF-8"); CElem (lit "rdf:RDF"); CAttr (lit "xmlns:rdf") (lit "http://www.w3.org/1999/02/22-rdf-syntax-ns#");
   CElem (lit "rdf:Description"); CAttr (lit "rdf:about") p_content; CEmpty (lit "rdf:type");
   CAttr (lit "rdf:resource") (lit "http://docs.oasis-open.org/ns/office/1.2/meta/odf#ContentFile"); CEnd (lit "rdf:Description");
   CElem (lit "rdf:Description"); CAttr (lit "rdf:about") []; CEmpty (lit "ns0:hasPart");
   CAttr (lit "xmlns:ns0") (lit "http://docs.oasis-open.org/ns/office/1.2/meta/pkg#"); CAttr (lit "rdf:resource") p_content; CEnd (lit "rdf:Description");
   CElem (lit "rdf:Description"); CAttr (lit "rdf:about") []; CEmpty (lit "rdf:type");
   CAttr (lit "rdf:resource") (lit "http://docs.oasis-open.org/ns/office/1.2/meta/pkg#Document"); CEnd (lit "rdf:Description"); CEnd (lit "rdf:RDF")].
Definition rdf_entry : entry := Entry p_rdf None (lit "application/rdf+xml") (Some (render false rdf_calls)).

(** write.rs:625-652 [create_manifest]: only what is missing is added. *)
Definition add_missing (e : entry) (m : manifest) : manifest := if am_has (en_path e) m then m else add_manifest e m.
Definition create_manifest (version : str) (m : manifest) : manifest :=
  add_missing (plain_entry p_settings (lit "text/xml")) (add_missing (plain_entry p_content (lit "text/xml"))
    (add_missing (plain_entry p_meta (lit "text/xml")) (add_missing (plain_entry p_styles (lit "text/xml"))
       (add_missing rdf_entry (add_missing (Entry p_root (Some version) ods_type None) m))))).

(** write.rs:700-725 [write_ods_manifest]; [attr_str] writes its value as it is. *)
Definition entry_calls (e : entry) : list call :=
  [CEmpty (lit "manifest:file-entry"); CAttrEsc (lit "manifest:full-path") (en_path e)]
  ++ match en_version e with Some v => [CAttrEsc (lit "manifest:version") v] | None => [] end
  ++ [CAttrEsc (lit "manifest:media-type") (en_type e)].
Definition manifest_calls (version : str) (m : manifest) : list call :=
  [CDtd (lit "UTF-8"); CElem (lit "manifest:manifest"); CAttr (lit "xmlns:manifest") (lit "urn:oasis:names:tc:opendocument:xmlns:manifest:1.0");
   CAttrEsc (lit "manifest:version") version] ++ flat_map (fun kv => entry_calls (snd kv)) m ++ [CEnd (lit "manifest:manifest")].

(** A zip archive is the list of its entries. The library refuses a name it has already, and adds a slash to the
    name of a directory that has none. Compression is left out, and the bytes of a text are its characters. *)
Definition zip : Type := list (str * str).
Definition zip_add (name data : str) (z : zip) : res zip := if am_has name z then Err else Ok (z ++ [(name, data)]).
Definition zip_dir (name : str) (z : zip) : res zip :=
  zip_add (if (last name 0 =? c_slash) || (last name 0 =? c_bslash) then name else name ++ [c_slash]) [] z.

(** write.rs:3158-3185 [write_ods_extra]. *)
Fixpoint write_extra (l : list entry) (z : zip) : res zip :=
  match l with
  | [] => Ok z
  | e :: r =>
      let* z' := if is_own (en_path e) then Ok z
                 else if is_dir e then zip_dir (en_path e) z
                 else zip_add (en_path e) (match en_data e with Some d => d | None => [] end) z in
      write_extra r z'
  end.
(** The texts of the parts that are written by other functions. *)
Record parts : Type := Parts { pt_meta : str; pt_settings : str; pt_styles : str; pt_content : str }.
(** write.rs:344-407 [write_ods_impl]: the manifest of the workbook is completed, too. *)
Definition write_ods (version : str) (p : parts) (m : manifest) : res (zip * manifest) :=
  let m := create_manifest version m in
  let* z := zip_add p_mime ods_type [] in
  let* z := zip_dir p_inf z in
  let* z := zip_add p_manifest (render false (manifest_calls version m)) z in
  let* z := zip_add p_meta (pt_meta p) z in
  let* z := zip_add p_settings (pt_settings p) z in
  let* z := zip_add p_styles (pt_styles p) z in
  let* z := zip_add p_content (pt_content p) z in
  let* z := write_extra (map snd m) z in
  Ok (z, m).

(** read.rs:452-496 [read_ods_manifest]. *)
Definition entry_attr (e : entry) (kv : str * str) : entry :=
  let '(Entry p v t d) := e in
  if str_eqb (fst kv) (lit "manifest:full-path") then Entry (snd kv) v t d
  else if str_eqb (fst kv) (lit "manifest:version") then Entry p (Some (snd kv)) t d
  else if str_eqb (fst kv) (lit "manifest:media-type") then Entry p v (snd kv) d
  else e.
Definition read_event (m : manifest) (ev : event) : manifest :=
  match ev with
  | EEmpty n a =>
      if str_eqb n (lit "manifest:file-entry") then
        let e := fold_left entry_attr a entry0 in
        if str_eqb (en_path e) p_mime || str_eqb (en_path e) p_manifest then m else add_manifest e m
      else m
  | _ => m
  end.
Definition read_manifest (evs : list event) : manifest := fold_left read_event evs [].
(** read.rs:432-450 [read_ods_extras]. *)
Fixpoint read_extras (z : zip) (m : manifest) : res manifest :=
  match m with
  | [] => Ok []
  | (k, e) :: r =>
      let* e' := if is_dir e || is_own (en_path e) then Ok e
                 else match am_get (en_path e) z with Some d => Ok (Entry (en_path e) (en_version e) (en_type e) (Some d)) | None => Err end in
      let* r' := read_extras z r in
      Ok ((k, e') :: r')
  end.
(** read.rs:357-373: the manifest that is read from an archive; without a manifest there is none. *)
Definition read_package (z : zip) : res manifest :=
  let* m := match am_get p_manifest z with
            | Some t => let* evs := read_events t in Ok (read_manifest evs)
            | None => Ok []
            end in
  read_extras z m.
