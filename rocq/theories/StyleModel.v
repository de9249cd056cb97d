(** Fonts, styles, value formats, page layouts and master pages: what is written of them into styles.xml, content.xml and the flat file,
    and how it is read. *)
From Verif Require Import Base NumModel EnumModel RefsModel XmlModel CellModel CellIoModel BookModel ValidModel.

(** style/mod.rs:142-180. *)
Inductive origin := OContent | OStyles.
Inductive suse := UDefault | UNamed | UAutomatic.
Definition origin_eqb (a b : origin) : bool := match a, b with OContent, OContent | OStyles, OStyles => true | _, _ => false end.
Definition suse_eqb (a b : suse) : bool := match a, b with UDefault, UDefault | UNamed, UNamed | UAutomatic, UAutomatic => true | _, _ => false end.

(** attrmap2.rs: the names and values in their order. *)
Definition attrs : Type := list (str * str).
(** style/fontface.rs:28-34. *)
Record font := Font { ft_name : str; ft_origin : origin; ft_attr : attrs }.
(** style/stylemap.rs:16-20; a condition is its text (condition.rs:164-168). *)
Record smap := SMap { sp_cond : str; sp_style : str; sp_base : option cellref }.
(** The eight kinds of styles have the name, which is in [named], the origin, the use, attributes, and some of: properties of their own kind
    ([sb_main]), paragraph properties, text properties, tab stops, style maps. style/tablestyle.rs, rowstyle.rs, colstyle.rs, cellstyle.rs,
    paragraphstyle.rs, textstyle.rs, ruby.rs, graphicstyle.rs. A text style has [sb_text] only. *)
Record sbody := SBody { sb_attr : attrs; sb_main : attrs; sb_para : attrs; sb_text : attrs; sb_tabs : option (list attrs); sb_maps : option (list smap) }.
Definition sbody0 : sbody := SBody [] [] [] [] None None.
(** format/mod.rs: [FormatPartType] and 281-296 [FormatPart]. *)
Inductive ptype :=
| PBoolean | PNumber | PScientific | PCurrency | PDay | PMonth | PYear | PEra | PDayOfWeek | PWeek | PQuarter | PHours | PMinutes | PSeconds
| PFraction | PAmPm | PTextPart | PTextContent | PFill.
Record part := Part { pt_type : ptype; pt_attr : attrs; pt_pos : option Z; pt_content : option str }.
(** macro_format.rs: the seven kinds of value formats; a style map is its condition and the name applied (format/stylemap.rs:9-13). *)
Record fbody := FBody { fb_attr : attrs; fb_text : attrs; fb_parts : list part; fb_maps : option (list (str * str)) }.
(** style/pagestyle.rs:23-32. *)
Record pbody := PBody { pg_usage : option str; pg_props : attrs; pg_header : attrs; pg_footer : attrs }.
(** style/masterpage.rs:236-245 [HeaderFooter]: the derived default has [display] false, [new] has it true. *)
Record hfoot := HF { hf_display : bool; hf_left : list xnode; hf_center : list xnode; hf_right : list xnode; hf_content : list xnode }.
Definition hf_default : hfoot := HF false [] [] [] [].
Definition hf_new : hfoot := HF true [] [] [] [].
(** The six headers and footers in the order they are written. *)
Inductive hslot := HHeader | HHeaderFirst | HHeaderLeft | HFooter | HFooterFirst | HFooterLeft.
Definition all_hslots : list hslot := [HHeader; HHeaderFirst; HHeaderLeft; HFooter; HFooterFirst; HFooterLeft].
(** style/masterpage.rs:41-55. *)
Record mbody := MBody { mp_display : str; mp_page : option str; mp_next : option str;
  mp_header : hfoot; mp_header_first : hfoot; mp_header_left : hfoot; mp_footer : hfoot; mp_footer_first : hfoot; mp_footer_left : hfoot }.
Definition mbody0 : mbody := MBody [] None None hf_default hf_default hf_default hf_default hf_default hf_default.
Definition mp_hf (b : mbody) (s : hslot) : hfoot :=
  match s with
  | HHeader => mp_header b | HHeaderFirst => mp_header_first b | HHeaderLeft => mp_header_left b
  | HFooter => mp_footer b | HFooterFirst => mp_footer_first b | HFooterLeft => mp_footer_left b
  end.
Definition put_hf (s : hslot) (h : hfoot) (b : mbody) : mbody :=
  let '(MBody d p x h1 h2 h3 f1 f2 f3) := b in
  match s with
  | HHeader => MBody d p x h h2 h3 f1 f2 f3 | HHeaderFirst => MBody d p x h1 h h3 f1 f2 f3 | HHeaderLeft => MBody d p x h1 h2 h f1 f2 f3
  | HFooter => MBody d p x h1 h2 h3 h f2 f3 | HFooterFirst => MBody d p x h1 h2 h3 f1 h f3 | HFooterLeft => MBody d p x h1 h2 h3 f1 f2 h
  end.

Inductive body := BStyle (o : origin) (u : suse) (b : sbody) | BFormat (o : origin) (u : suse) (b : fbody) | BPage (b : pbody) | BMaster (b : mbody).
(** The part of the workbook this is about (workbook_.rs:48-92); the maps are keyed by the name. *)
Record stylebook := SBook { sk_fonts : amap font; sk_book : book body }.
Definition stylebook0 : stylebook := SBook [] book0.

(** ** Writing *)

Definition attr_calls (a : attrs) : list call := map (fun kv => CAttrEsc (fst kv) (snd kv)) a.
Definition prop_calls (tag : str) (a : attrs) : list call := if is_nil a then [] else CEmpty tag :: attr_calls a.
Definition t_para : str := lit "style:paragraph-properties".
Definition t_text : str := lit "style:text-properties".
Definition t_tabs : str := lit "style:tab-stops".
Definition t_tab : str := lit "style:tab-stop".
Definition t_map : str := lit "style:map".
Definition t_style : str := lit "style:style".
Definition t_default : str := lit "style:default-style".
Definition k_name : str := lit "style:name".
Definition k_family : str := lit "style:family".

(** The families in write.rs:2500-2848, with the value of style:family and the element of their own properties. *)
Definition fam_name (f : family) : str :=
  match f with
  | FTable => lit "table" | FRow => lit "table-row" | FCol => lit "table-column" | FCell => lit "table-cell" | FParagraph => lit "paragraph"
  | FText => lit "text" | FRuby => lit "ruby" | FGraphic => lit "graphic" | _ => []
  end.
Definition main_tag (f : family) : str :=
  match f with
  | FTable => lit "style:table-properties" | FRow => lit "style:table-row-properties" | FCol => lit "style:table-column-properties"
  | FCell => lit "style:table-cell-properties" | FRuby => lit "style:ruby-properties" | FGraphic => lit "style:graphic-properties"
  | _ => []
  end.
(** write.rs:2643-2652. *)
Definition smap_calls (m : smap) : res (list call) :=
  let* base := match sp_base m with Some r => let* t := fmt_cell_ref r in Ok [CAttrEsc (lit "style:base-cell-address") t] | None => Ok [] end in
  Ok ([CEmpty t_map; CAttrEsc (lit "style:condition") (sp_cond m); CAttrEsc (lit "style:apply-style-name") (sp_style m)] ++ base).
Fixpoint cat_calls {A} (f : A -> res (list call)) (l : list A) : res (list call) :=
  match l with [] => Ok [] | x :: r => let* a := f x in let* b := cat_calls f r in Ok (a ++ b) end.
(** write.rs:2687-2711: the paragraph properties of a paragraph style, without which the tab stops are not written. *)
Definition para_calls (b : sbody) : list call :=
  if is_nil (sb_para b) then []
  else match sb_tabs b with
    | None => CEmpty t_para :: attr_calls (sb_para b)
    | Some ts => CElem t_para :: attr_calls (sb_para b) ++ CElem t_tabs :: flat_map (fun a => CEmpty t_tab :: attr_calls a) ts ++ [CEnd t_tabs; CEnd t_para]
    end.
(** What is inside the element, and whether there is anything. *)
Definition style_inner (f : family) (b : sbody) : res (list call) :=
  match f with
  | FText => Ok (prop_calls t_text (sb_text b))
  | FCell => let* m := match sb_maps b with Some l => cat_calls smap_calls l | None => Ok [] end in
             Ok (prop_calls (main_tag f) (sb_main b) ++ prop_calls t_para (sb_para b) ++ prop_calls t_text (sb_text b) ++ m)
  | FParagraph => Ok (para_calls b ++ prop_calls t_text (sb_text b))
  | FGraphic => Ok (prop_calls (main_tag f) (sb_main b) ++ prop_calls t_para (sb_para b) ++ prop_calls t_text (sb_text b))
  | _ => Ok (prop_calls (main_tag f) (sb_main b))
  end.
Definition style_empty (f : family) (b : sbody) : bool :=
  match f with
  | FText => is_nil (sb_text b)
  | FCell => is_nil (sb_main b) && is_nil (sb_para b) && is_nil (sb_text b) && negb (is_some (sb_maps b))
  | FParagraph => is_nil (sb_para b) && is_nil (sb_text b)
  | FGraphic => is_nil (sb_main b) && is_nil (sb_para b) && is_nil (sb_text b)
  | _ => is_nil (sb_main b)
  end.
Definition own_attr (kv : str * str) : bool := negb (str_eqb (fst kv) k_name) && negb (str_eqb (fst kv) k_family).
Definition style_tag (u : suse) : str := match u with UDefault => t_default | _ => t_style end.
(** write.rs:2500-2848 [write_tablestyle] ... [write_graphicstyle], all alike. *)
Definition style_calls (f : family) (n : str) (u : suse) (b : sbody) : res (list call) :=
  let* inner := style_inner f b in
  Ok (CElemIf (negb (style_empty f b)) (style_tag u)
      :: (match u with UDefault => [] | _ => [CAttrEsc k_name n] end) ++ CAttr k_family (fam_name f) :: attr_calls (filter own_attr (sb_attr b))
      ++ inner ++ [CEndIf (negb (style_empty f b)) (style_tag u)]).

(** write.rs:2877-2888. *)
Definition fmt_tag (f : family) : str :=
  match f with
  | FmtBoolean => lit "number:boolean-style" | FmtNumber => lit "number:number-style" | FmtText => lit "number:text-style"
  | FmtTimeDuration => lit "number:time-style" | FmtPercentage => lit "number:percentage-style" | FmtCurrency => lit "number:currency-style"
  | FmtDateTime => lit "number:date-style" | _ => []
  end.
(** write.rs:2904-2924. *)
Definition part_tag (p : ptype) : str :=
  match p with
  | PBoolean => lit "number:boolean" | PNumber => lit "number:number" | PScientific => lit "number:scientific-number"
  | PCurrency => lit "number:currency-symbol" | PDay => lit "number:day" | PMonth => lit "number:month" | PYear => lit "number:year"
  | PEra => lit "number:era" | PDayOfWeek => lit "number:day-of-week" | PWeek => lit "number:week-of-year" | PQuarter => lit "number:quarter"
  | PHours => lit "number:hours" | PMinutes => lit "number:minutes" | PSeconds => lit "number:seconds" | PFraction => lit "number:fraction"
  | PAmPm => lit "number:am-pm" | PTextPart => lit "number:text" | PTextContent => lit "number:text-content" | PFill => lit "number:fill-character"
  end.
Definition t_embedded : str := lit "number:embedded-text".
(** write.rs:2926-2969: one part. *)
Definition part_calls (p : part) : list call :=
  let tag := part_tag (pt_type p) in
  match pt_type p with
  | PTextPart | PCurrency | PFill =>
      match pt_content p with
      | Some (c :: t) => CElemIf true tag :: attr_calls (pt_attr p) ++ [CTextEsc (c :: t); CEndIf true tag]
      | _ => CElemIf false tag :: attr_calls (pt_attr p) ++ [CEndIf false tag]
      end
  | PNumber =>
      match pt_pos p with
      | Some z => CElem tag :: attr_calls (pt_attr p)
          ++ (match pt_content p with
              | Some t => [CElem t_embedded; CAttrEsc (lit "number:position") (show_Z z); CTextEsc t; CEnd t_embedded]
              | None => [CEmpty t_embedded; CAttrEsc (lit "number:position") (show_Z z)]
              end) ++ [CEnd tag]
      | None => CEmpty tag :: attr_calls (pt_attr p)
      end
  | _ => CEmpty tag :: attr_calls (pt_attr p)
  end.
(** write.rs:2866-2982 [write_valuestyle]: one format. *)
Definition format_calls (f : family) (n : str) (b : fbody) : list call :=
  CElem (fmt_tag f) :: CAttrEsc k_name n :: attr_calls (fb_attr b) ++ prop_calls t_text (fb_text b) ++ flat_map part_calls (fb_parts b)
  ++ (match fb_maps b with
      | Some l => flat_map (fun m => [CEmpty t_map; CAttrEsc (lit "style:condition") (fst m); CAttrEsc (lit "style:apply-style-name") (snd m)]) l
      | None => [] end)
  ++ [CEnd (fmt_tag f)].

Definition t_page : str := lit "style:page-layout".
Definition t_page_props : str := lit "style:page-layout-properties".
Definition t_header_style : str := lit "style:header-style".
Definition t_footer_style : str := lit "style:footer-style".
Definition t_hf_props : str := lit "style:header-footer-properties".
(** write.rs:2984-3024 [write_pagestyles]: one page layout. *)
Definition page_calls (n : str) (b : pbody) : list call :=
  CElem t_page :: CAttrEsc k_name n :: (match pg_usage b with Some u => [CAttrEsc (lit "style:page-usage") u] | None => [] end)
  ++ prop_calls t_page_props (pg_props b)
  ++ CElem t_header_style :: CEmpty t_hf_props :: attr_calls (pg_header b) ++ [CEnd t_header_style]
  ++ CElem t_footer_style :: CEmpty t_hf_props :: attr_calls (pg_footer b) ++ [CEnd t_footer_style] ++ [CEnd t_page].

Definition t_master : str := lit "style:master-page".
Definition hf_tag (h : hslot) : str :=
  match h with
  | HHeader => lit "style:header" | HHeaderFirst => lit "style:header-first" | HHeaderLeft => lit "style:header-left"
  | HFooter => lit "style:footer" | HFooterFirst => lit "style:footer-first" | HFooterLeft => lit "style:footer-left"
  end.
Definition t_left : str := lit "style:region-left".
Definition t_center : str := lit "style:region-center".
Definition t_right : str := lit "style:region-right".
Definition hf_empty (h : hfoot) : bool := is_nil (hf_left h) && is_nil (hf_center h) && is_nil (hf_right h) && is_nil (hf_content h).
Definition region_calls (tag : str) (l : list xnode) : list call := if is_nil l then [] else CElem tag :: flat_map write_node l ++ [CEnd tag].
(** write.rs:3093-3120 [write_regions]. *)
Definition regions_calls (h : hfoot) : list call :=
  region_calls t_left (hf_left h) ++ region_calls t_center (hf_center h) ++ region_calls t_right (hf_right h) ++ flat_map write_node (hf_content h).
(** write.rs:3046-3086: one header or footer; the main ones are not marked as hidden for being empty. *)
Definition hf_calls (s : hslot) (h : hfoot) : list call :=
  let hidden := match s with HHeader | HFooter => negb (hf_display h) | _ => negb (hf_display h) || hf_empty h end in
  CElemIf (negb (hf_empty h)) (hf_tag s) :: (if hidden then [CAttr (lit "style:display") (lit "false")] else [])
  ++ regions_calls h ++ [CEndIf (negb (hf_empty h)) (hf_tag s)].
(** write.rs:3026-3091 [write_masterpage]: one master page. *)
Definition master_calls (n : str) (b : mbody) : list call :=
  CElem t_master :: CAttrEsc k_name n :: (if is_nil (mp_display b) then [] else [CAttrEsc (lit "style:display-name") (mp_display b)])
  ++ opt_attr (lit "style:page-layout-name") (mp_page b) ++ opt_attr (lit "style:next-style-name") (mp_next b)
  ++ flat_map (fun s => hf_calls s (mp_hf b s)) all_hslots ++ [CEnd t_master].

(** What is written for one entry of a map, if it has the origin and use asked for. *)
Definition item_calls (o : origin) (u : suse) (f : family) (s : named body) : res (list call) :=
  match nm_body s with
  | BStyle o' u' b => if origin_eqb o' o && suse_eqb u' u then style_calls f (nm_name s) u b else Ok []
  | BFormat o' u' b => if origin_eqb o' o && suse_eqb u' u then Ok (format_calls f (nm_name s) b) else Ok []
  | BPage b => Ok (page_calls (nm_name s) b)
  | BMaster b => Ok (master_calls (nm_name s) b)
  end.
Definition family_calls (b : stylebook) (o : origin) (u : suse) (f : family) : res (list call) :=
  cat_calls (fun kv => item_calls o u f (snd kv)) (bk_styles (sk_book b) f).
(** write.rs:2442-2498 [write_styles] and 2850-2864 [write_valuestyles]; the maps are in the order they have. *)
Definition write_styles (b : stylebook) (o : origin) (u : suse) : res (list call) :=
  cat_calls (family_calls b o u) [FCol; FRow; FTable; FCell; FParagraph; FText; FRuby; FGraphic].
Definition write_formats (b : stylebook) (o : origin) (u : suse) : res (list call) :=
  cat_calls (family_calls b o u) [FmtBoolean; FmtCurrency; FmtDateTime; FmtNumber; FmtPercentage; FmtText; FmtTimeDuration].
Definition t_fonts : str := lit "office:font-face-decls".
Definition t_office_styles : str := lit "office:styles".
Definition t_automatic : str := lit "office:automatic-styles".
Definition t_masters : str := lit "office:master-styles".
Definition t_font : str := lit "style:font-face".
(** write.rs:2378-2402 [write_office_font_face_decls], [write_style_font_face]. *)
Definition font_calls (o : origin) (ft : font) : list call :=
  if origin_eqb (ft_origin ft) o then CEmpty t_font :: CAttrEsc k_name (ft_name ft) :: attr_calls (ft_attr ft) else [].
Definition write_fonts (b : stylebook) (o : origin) : list call :=
  CElemIf (negb (is_nil (sk_fonts b))) t_fonts :: flat_map (fun kv => font_calls o (snd kv)) (sk_fonts b) ++ [CEndIf (negb (is_nil (sk_fonts b))) t_fonts].
(** write.rs:2404-2416 [write_office_styles]. *)
Definition write_office_styles (b : stylebook) (o : origin) : res (list call) :=
  let* d := write_styles b o UDefault in let* n := write_styles b o UNamed in
  let* fn := write_formats b o UNamed in let* fd := write_formats b o UDefault in
  Ok (CElem t_office_styles :: d ++ n ++ fn ++ fd ++ [CEnd t_office_styles]).
(** write.rs:2418-2429 [write_office_automatic_styles]: page layouts have no origin. *)
Definition write_automatic (b : stylebook) (o : origin) : res (list call) :=
  let* p := family_calls b o UAutomatic FPage in let* s := write_styles b o UAutomatic in let* v := write_formats b o UAutomatic in
  Ok (CElem t_automatic :: p ++ s ++ v ++ [CEnd t_automatic]).
(** write.rs:2431-2440 [write_office_master_styles]. *)
Definition write_masters (b : stylebook) : res (list call) :=
  let* m := family_calls b OStyles UNamed FMasterPage in Ok (CElem t_masters :: m ++ [CEnd t_masters]).
(** write.rs:1232-1246: styles.xml; [ns] are the namespaces and the version. *)
Definition styles_doc (ns : attrs) (b : stylebook) : res (list call) :=
  let* s := write_office_styles b OStyles in let* a := write_automatic b OStyles in let* m := write_masters b in
  Ok (CDtd (lit "UTF-8") :: CElem (lit "office:document-styles") :: attr_calls ns ++ write_fonts b OStyles ++ s ++ a ++ m ++ [CEnd (lit "office:document-styles")]).
(** write.rs:1346-1361: content.xml; [pre] is what is written for the scripts, [post] for the sheets. *)
Definition content_doc (ns : attrs) (pre : list call) (b : stylebook) (post : list call) : res (list call) :=
  let* a := write_automatic b OContent in
  Ok (CDtd (lit "UTF-8") :: CElem (lit "office:document-content") :: attr_calls ns ++ pre ++ write_fonts b OContent ++ a ++ post ++ [CEnd (lit "office:document-content")]).
(** write.rs:166-218 [convert]: all get the origin content.xml, in the workbook of the caller. *)
Definition converted (s : named body) : named body :=
  match nm_body s with
  | BStyle _ u b => Named (nm_name s) (BStyle OContent u b)
  | BFormat _ u b => Named (nm_name s) (BFormat OContent u b)
  | _ => s
  end.
Definition convert (b : stylebook) : stylebook :=
  SBook (sk_fonts b) (Book (bk_auto (sk_book b)) (fun f => map (fun kv => (fst kv, converted (snd kv))) (bk_styles (sk_book b) f))).
(** write.rs:309-331: the flat file; [pre] is what is written for the metadata, the settings and the scripts. *)
Definition fods_doc (ns : attrs) (pre : list call) (b : stylebook) (post : list call) : res (list call) :=
  let c := convert b in
  let* s := write_office_styles c OContent in let* a := write_automatic c OContent in let* m := write_masters c in
  Ok (CDtd (lit "UTF-8") :: CElem (lit "office:document") :: attr_calls ns ++ pre ++ write_fonts c OContent ++ s ++ a ++ m ++ post ++ [CEnd (lit "office:document")]).

(** ** Reading *)

(** The loop all the readers have: an end tag called [stop] ends it, the end of the file does too (the flag tells), everything else goes
    to [step], which may read on; [n] bounds the number of turns. *)
Fixpoint reading {S : Type} (n : nat) (stop : option str) (step : S -> event -> list event -> res (S * list event)) (s : S) (evs : list event)
  : res (bool * S * list event) :=
  match n, evs with
  | _, [] => Ok (false, s, [])
  | O, _ => Err
  | Datatypes.S n', e :: r =>
      if (match e, stop with EEnd t, Some q => str_eqb t q | _, _ => false end) then Ok (true, s, r)
      else let* (s', r') := step s e r in reading n' stop step s' r'
  end.
(** A start tag or an empty element: name, attributes, whether it is empty. *)
Definition on_tag (e : event) : option (str * attrs * bool) :=
  match e with EStart n a => Some (n, a, false) | EEmpty n a => Some (n, a, true) | _ => None end.
(** read.rs:3585-3610 [copy_style_attr]. *)
Definition copy_style_attr (a : attrs) : str * attrs :=
  (fold_left (fun v kv => if str_eqb (fst kv) k_name then snd kv else v) a [], filter (fun kv => negb (str_eqb (fst kv) k_name)) a).
Definition add_item (f : family) (s : named body) (b : stylebook) : res stylebook :=
  let* (bk, _) := add_style f s (sk_book b) in Ok (SBook (sk_fonts b) bk).

(** read.rs:1925-1966 [read_office_font_face_decls]: the state has the origin of the next font. *)
Definition font_step (s : stylebook * origin) (e : event) (r : list event) : res (stylebook * origin * list event) :=
  match on_tag e with
  | Some (n, a, _) =>
      if str_eqb n t_font then
        let '(nm, at') := copy_style_attr a in
        Ok (SBook (am_put nm (Font nm (snd s) at') (sk_fonts (fst s))) (sk_book (fst s)), OContent, r)
      else Ok (s, r)
  | None => Ok (s, r)
  end.
Definition read_fonts (o : origin) (b : stylebook) (evs : list event) : res (stylebook * list event) :=
  let* (p, r) := reading (length evs) (Some t_fonts) font_step (b, o) evs in Ok (fst (snd p), r).

(** read.rs:3551-3580 [read_stylemap], 3527-3549 [read_value_stylemap]. *)
Definition smap_attr (m : smap) (kv : str * str) : res smap :=
  let '(SMap c s b) := m in let '(k, v) := kv in
  if str_eqb k (lit "style:condition") then Ok (SMap v s b)
  else if str_eqb k (lit "style:apply-style-name") then Ok (SMap c v b)
  else if str_eqb k (lit "style:base-cell-address") then let* x := parse_cellref v in Ok (SMap c s (Some x))
  else Ok m.
Fixpoint read_smap (m : smap) (a : attrs) : res smap := match a with [] => Ok m | kv :: r => let* m' := smap_attr m kv in read_smap m' r end.
Definition vmap_attr (m : str * str) (kv : str * str) : str * str :=
  if str_eqb (fst kv) (lit "style:condition") then (snd kv, snd m)
  else if str_eqb (fst kv) (lit "style:apply-style-name") then (fst m, snd kv) else m.
Definition read_vmap (a : attrs) : str * str := fold_left vmap_attr a ([], []).
Definition push_opt {A} (o : option (list A)) (x : A) : option (list A) := match o with Some l => Some (l ++ [x]) | None => Some [x] end.
(** read.rs:3057-3520: the elements inside a style, by family; [copy_attr2] (3613-3629) adds to what is there. *)
Definition add_main (a : attrs) (s : sbody) : sbody := let '(SBody x m p t ts ms) := s in SBody x (m ++ a) p t ts ms.
Definition add_para (a : attrs) (s : sbody) : sbody := let '(SBody x m p t ts ms) := s in SBody x m (p ++ a) t ts ms.
Definition add_text (a : attrs) (s : sbody) : sbody := let '(SBody x m p t ts ms) := s in SBody x m p (t ++ a) ts ms.
Definition add_tab (a : attrs) (s : sbody) : sbody := let '(SBody x m p t ts ms) := s in SBody x m p t (push_opt ts a) ms.
Definition add_map (a : smap) (s : sbody) : sbody := let '(SBody x m p t ts ms) := s in SBody x m p t ts (push_opt ms a).
Definition style_step (f : family) (s : sbody) (e : event) (r : list event) : res (sbody * list event) :=
  match on_tag e with
  | Some (n, a, _) =>
      match f with
      | FText => Ok (if str_eqb n t_text then add_text a s else s, r)
      | FParagraph =>
          Ok (if str_eqb n t_text then add_text a s else if str_eqb n t_para then add_para a s else if str_eqb n t_tab then add_tab a s else s, r)
      | FGraphic =>
          Ok (if str_eqb n (main_tag f) then add_main a s else if str_eqb n t_para then add_para a s else if str_eqb n t_text then add_text a s else s, r)
      | FCell =>
          if str_eqb n (main_tag f) then Ok (add_main a s, r) else if str_eqb n t_text then Ok (add_text a s, r)
          else if str_eqb n t_para then Ok (add_para a s, r)
          else if str_eqb n t_map then let* m := read_smap (SMap [] [] None) a in Ok (add_map m s, r) else Ok (s, r)
      | _ => Ok (if str_eqb n (main_tag f) then add_main a s else s, r)
      end
  | None => Ok (s, r)
  end.
(** read.rs:3057-3520 [read_tablestyle] ... [read_graphicstyle]: at the end of the file the style is dropped. *)
Definition read_style (f : family) (o : origin) (u : suse) (tag : str) (a : attrs) (empty : bool) (b : stylebook) (evs : list event) : res (stylebook * list event) :=
  let '(nm, at') := copy_style_attr a in
  let s0 := SBody at' [] [] [] None None in
  if empty then let* b' := add_item f (Named nm (BStyle o u s0)) b in Ok (b', evs)
  else
    let* (p, r) := reading (length evs) (Some tag) (style_step f) s0 evs in
    if fst p then let* b' := add_item f (Named nm (BStyle o u (snd p))) b in Ok (b', r) else Ok (b, r).
(** read.rs:3012-3055 [read_style_style]: for each attribute style:family, of which there should be one. *)
Definition family_of (v : str) : option family :=
  find (fun f => str_eqb (fam_name f) v) [FTable; FCol; FRow; FCell; FGraphic; FParagraph; FText; FRuby].
Fixpoint read_style_style (todo : attrs) (o : origin) (u : suse) (tag : str) (a : attrs) (empty : bool) (b : stylebook) (evs : list event) : res (stylebook * list event) :=
  match todo with
  | [] => Ok (b, evs)
  | (k, v) :: rest =>
      if str_eqb k k_family then
        match family_of (raw v) with
        | Some f => let* (b', r) := read_style f o u tag a empty b evs in read_style_style rest o u tag a empty b' r
        | None => Err
        end
      else read_style_style rest o u tag a empty b evs
  end.

(** read.rs:2839-2868 [read_part]. *)
Definition skip_step (s : part) (e : event) (r : list event) : res (part * list event) := Ok (s, r).
(** read.rs:2871-2909 [read_part_text]. *)
Definition append_content (t : str) (p : part) : part :=
  Part (pt_type p) (pt_attr p) (pt_pos p) (Some (match pt_content p with Some v => v ++ t | None => t end)).
Definition text_step (s : part) (e : event) (r : list event) : res (part * list event) :=
  match e with
  | ERef t => let* v := entity t in Ok (append_content v s, r)
  | EText t => Ok (append_content t s, r)
  | _ => Ok (s, r)
  end.
(** read.rs:2911-3008 [read_part_number]: text replaces what was read before, references are passed over. *)
Fixpoint position_attrs (p : part) (a : attrs) : res part :=
  match a with
  | [] => Ok p
  | (k, v) :: r =>
      if str_eqb k (lit "number:position") then let* z := parse_i32 (raw v) in position_attrs (Part (pt_type p) (pt_attr p) (Some z) (pt_content p)) r
      else position_attrs p r
  end.
Definition number_step (s : part) (e : event) (r : list event) : res (part * list event) :=
  match e with
  | EStart n a | EEmpty n a => if str_eqb n t_embedded then let* p := position_attrs s a in Ok (p, r) else Ok (s, r)
  | EText t => Ok (Part (pt_type s) (pt_attr s) (pt_pos s) (Some t), r)
  | _ => Ok (s, r)
  end.
Definition read_part (ty : ptype) (tag : str) (a : attrs) (empty : bool) (evs : list event) : res (part * list event) :=
  let p0 := Part ty a None None in
  if empty then Ok (p0, evs)
  else
    let step := match ty with PTextPart | PCurrency | PFill => text_step | PNumber => number_step | _ => skip_step end in
    let* (p, r) := reading (length evs) (Some tag) step p0 evs in Ok (snd p, r).
(** The names in read.rs:2634-2812, two of them have a second spelling. *)
Definition all_parts : list ptype :=
  [PBoolean; PNumber; PFraction; PScientific; PTextPart; PAmPm; PDay; PDayOfWeek; PEra; PHours; PMinutes; PMonth; PQuarter; PSeconds; PWeek; PYear;
   PCurrency; PFill; PTextContent].
Definition part_of (n : str) : option ptype :=
  if str_eqb n (lit "loext:text") then Some PTextPart else if str_eqb n (lit "loext:fill-character") then Some PFill
  else find (fun p => str_eqb (part_tag p) n) all_parts.
Definition add_part (p : part) (s : fbody) : fbody := let '(FBody a t ps ms) := s in FBody a t (ps ++ [p]) ms.
(** read.rs:2613-2837 [read_value_format_parts]: one turn of the loop. *)
Definition format_step (s : fbody) (e : event) (r : list event) : res (fbody * list event) :=
  match on_tag e with
  | Some (n, a, empty) =>
      match part_of n with
      | Some ty => let* (p, r') := read_part ty n a empty r in Ok (add_part p s, r')
      | None =>
          let '(FBody x t ps ms) := s in
          if str_eqb n t_map then Ok (FBody x t ps (push_opt ms (read_vmap a)), r)
          else if str_eqb n t_text then Ok (FBody x (t ++ a) ps ms, r)
          else Ok (s, r)
      end
  | None => Ok (s, r)
  end.
(** read.rs:2556-2611 [read_value_format]: whether the element is empty is not asked. *)
Definition read_format (f : family) (o : origin) (u : suse) (tag : str) (a : attrs) (b : stylebook) (evs : list event) : res (stylebook * list event) :=
  let '(nm, at') := copy_style_attr a in
  let* (p, r) := reading (length evs) (Some tag) format_step (FBody at' [] [] None) evs in
  let* b' := add_item f (Named nm (BFormat o u (snd p))) b in Ok (b', r).
Definition format_of (tag : str) : option family :=
  find (fun f => str_eqb (fmt_tag f) tag) [FmtBoolean; FmtDateTime; FmtTimeDuration; FmtNumber; FmtCurrency; FmtPercentage; FmtText].

(** read.rs:1968-2062 [read_page_style]; the two flags tell whether a header or a footer style is being read. *)
Definition page_attr (s : str * pbody) (kv : str * str) : str * pbody :=
  if str_eqb (fst kv) k_name then (snd kv, snd s)
  else if str_eqb (fst kv) (lit "style:page-usage") then (fst s, PBody (Some (snd kv)) (pg_props (snd s)) (pg_header (snd s)) (pg_footer (snd s)))
  else s.
Definition page_step (s : pbody * bool * bool) (e : event) (r : list event) : res (pbody * bool * bool * list event) :=
  let '(PBody us p h f, hd, ft) := s in
  match e with
  | EStart n a | EEmpty n a =>
      if str_eqb n t_page_props then Ok (PBody us (p ++ a) h f, hd, ft, r)
      else if str_eqb n t_header_style then Ok (PBody us p h f, true, ft, r)
      else if str_eqb n t_footer_style then Ok (PBody us p h f, hd, true, r)
      else if str_eqb n t_hf_props then Ok (PBody us p (if hd then h ++ a else h) (if ft then f ++ a else f), hd, ft, r)
      else Ok (s, r)
  | EEnd n =>
      if str_eqb n t_header_style then Ok (PBody us p h f, false, ft, r)
      else if str_eqb n t_footer_style then Ok (PBody us p h f, hd, false, r)
      else Ok (s, r)
  | _ => Ok (s, r)
  end.
Definition read_page (a : attrs) (b : stylebook) (evs : list event) : res (stylebook * list event) :=
  let '(nm, p0) := fold_left page_attr a ([], PBody None [] [] []) in
  let* (p, r) := reading (length evs) (Some t_page) page_step (p0, false, false) evs in
  let* b' := add_item FPage (Named nm (BPage (fst (fst (snd p))))) b in Ok (b', r).

(** The characters [trim] removes (White_Space of Unicode). *)
Definition is_blank (c : char) : bool :=
  ((9 <=? c) && (c <=? 13)) || (c =? 32) || (c =? 133) || (c =? 160) || (c =? 5760) || ((8192 <=? c) && (c <=? 8202))
  || (c =? 8232) || (c =? 8233) || (c =? 8239) || (c =? 8287) || (c =? 12288).
(** xmltree.rs:225-241 [into_vec]: text must be blank. *)
Fixpoint into_vec (l : list xnode) : res (list xnode) :=
  match l with
  | [] => Ok []
  | XText t :: r => if forallb is_blank t then into_vec r else Err
  | x :: r => let* v := into_vec r in Ok (x :: v)
  end.
Definition children (x : xnode) : list xnode := match x with XTag _ _ c => c | XText _ => [] end.
Definition t_h : str := lit "text:h".
(** read.rs:2388-2446 [read_headerfooter]: one turn of the loop. The paragraphs are taken over at the end tag only. *)
Definition hf_step (s : hfoot * tcontent) (e : event) (r : list event) : res (hfoot * tcontent * list event) :=
  match on_tag e with
  | Some (n, a, empty) =>
      let '(HF d le ce ri co, tc) := s in
      if str_eqb n t_left then let* (x, r') := read_xml n a empty r in let* v := into_vec (children x) in Ok (HF d v ce ri co, tc, r')
      else if str_eqb n t_center then let* (x, r') := read_xml n a empty r in let* v := into_vec (children x) in Ok (HF d le v ri co, tc, r')
      else if str_eqb n t_right then let* (x, r') := read_xml n a empty r in let* v := into_vec (children x) in Ok (HF d le ce v co, tc, r')
      else if str_eqb n t_p || str_eqb n t_h then let* (t, r') := read_text_or_tag n a empty r in Ok (HF d le ce ri co, append_text t tc, r')
      else Ok (s, r)
  | None => Ok (s, r)
  end.
Fixpoint hf_attrs (h : hfoot) (a : attrs) : res hfoot :=
  match a with
  | [] => Ok h
  | (k, v) :: r => if str_eqb k (lit "style:display") then let* d := parse_bool (raw v) in hf_attrs (HF d (hf_left h) (hf_center h) (hf_right h) (hf_content h)) r else hf_attrs h r
  end.
Definition read_hf (tag : str) (a : attrs) (evs : list event) : res (hfoot * list event) :=
  let* h0 := hf_attrs hf_new a in
  let* (p, r) := reading (length evs) (Some tag) hf_step (h0, TcEmpty) evs in
  let '(HF d le ce ri co, tc) := snd p in Ok (if fst p then HF d le ce ri (wrap_text tc) else HF d le ce ri co, r).
Definition hslot_of (n : str) : option hslot := find (fun h => str_eqb (hf_tag h) n) all_hslots.
(** read.rs:2282-2358 [read_master_page]: empty headers and footers are passed over. *)
Definition master_step (s : mbody) (e : event) (r : list event) : res (mbody * list event) :=
  match e with
  | EStart n a => match hslot_of n with Some h => let* (x, r') := read_hf n a r in Ok (put_hf h x s, r') | None => Ok (s, r) end
  | _ => Ok (s, r)
  end.
Definition master_attr (s : str * mbody) (kv : str * str) : str * mbody :=
  let '(nm, MBody d p x h1 h2 h3 f1 f2 f3) := s in let '(k, v) := kv in
  if str_eqb k k_name then (v, MBody d p x h1 h2 h3 f1 f2 f3)
  else if str_eqb k (lit "style:page-layout-name") then (nm, MBody d (Some v) x h1 h2 h3 f1 f2 f3)
  else if str_eqb k (lit "style:display-name") then (nm, MBody v p x h1 h2 h3 f1 f2 f3)
  else if str_eqb k (lit "style:next-style-name") then (nm, MBody d p (Some v) h1 h2 h3 f1 f2 f3)
  else s.
Definition read_master (a : attrs) (b : stylebook) (evs : list event) : res (stylebook * list event) :=
  let '(nm, m0) := fold_left master_attr a ([], mbody0) in
  let* (p, r) := reading (length evs) (Some t_master) master_step m0 evs in
  let* b' := add_item FMasterPage (Named nm (BMaster (snd p))) b in Ok (b', r).

(** read.rs:2449-2497 [read_office_styles]. *)
Definition styles_step (o : origin) (b : stylebook) (e : event) (r : list event) : res (stylebook * list event) :=
  match on_tag e with
  | Some (n, a, empty) =>
      if str_eqb n t_style then read_style_style a o UNamed n a empty b r
      else if str_eqb n t_default then read_style_style a o UDefault n a empty b r
      else match format_of n with Some f => read_format f o UNamed n a b r | None => Ok (b, r) end
  | None => Ok (b, r)
  end.
(** read.rs:2500-2553 [read_office_automatic_styles]. *)
Definition automatic_step (o : origin) (b : stylebook) (e : event) (r : list event) : res (stylebook * list event) :=
  match on_tag e with
  | Some (n, a, empty) =>
      if str_eqb n t_style then read_style_style a o UAutomatic n a empty b r
      else if str_eqb n t_page then read_page a b r
      else match format_of n with Some f => read_format f o UAutomatic n a b r | None => Ok (b, r) end
  | None => Ok (b, r)
  end.
(** read.rs:2248-2280 [read_office_master_styles]. *)
Definition masters_step (b : stylebook) (e : event) (r : list event) : res (stylebook * list event) :=
  match on_tag e with
  | Some (n, a, _) => if str_eqb n t_master then read_master a b r else Ok (b, r)
  | None => Ok (b, r)
  end.
(** read.rs:3631-3672 [read_ods_styles] with [OStyles], 736-789 [read_ods_content] and 260-322 [read_fods_impl] with [OContent]. The sections that
    are not about styles are passed over event by event; there, other functions read them. *)
Definition doc_step (o : origin) (b : stylebook) (e : event) (r : list event) : res (stylebook * list event) :=
  match e with
  | EStart n _ =>
      if str_eqb n t_fonts then read_fonts o b r
      else if str_eqb n t_office_styles then let* (p, r') := reading (length r) (Some t_office_styles) (styles_step o) b r in Ok (snd p, r')
      else if str_eqb n t_automatic then let* (p, r') := reading (length r) (Some t_automatic) (automatic_step o) b r in Ok (snd p, r')
      else if str_eqb n t_masters then let* (p, r') := reading (length r) (Some t_masters) masters_step b r in Ok (snd p, r')
      else Ok (b, r)
  | _ => Ok (b, r)
  end.
Definition read_doc (o : origin) (b : stylebook) (evs : list event) : res stylebook :=
  let* (p, _) := reading (length evs) None (doc_step o) b evs in Ok (snd p).
(** read.rs:357-413 [read_ods_impl]: first styles.xml, then content.xml. *)
Definition read_ods (styles content : list event) : res stylebook :=
  let* b := read_doc OStyles stylebook0 styles in read_doc OContent b content.
Definition read_fods (doc : list event) : res stylebook := read_doc OContent stylebook0 doc.
