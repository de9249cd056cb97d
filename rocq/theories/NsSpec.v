(** Names and attributes in the files of a workbook: every prefix is declared on the root element, no attribute is twice in a tag. *)
From Verif Require Import Base XmlModel XmlSpec CellModel BookModel HeaderModel TableModel StyleModel ValidModel ScriptModel MetaModel WorkModel.

(** The prefix of a name is what is before the first colon. *)
Fixpoint prefix_of (n : str) : option str :=
  match n with
  | [] => None
  | c :: r => if c =? 58 then Some [] else match prefix_of r with Some p => Some (c :: p) | None => None end
  end.
(** [ns] are the names of the attributes of the root element. The prefixes xml and xmlns need no declaration. *)
Definition declared (ns : list str) (n : str) : Prop :=
  match prefix_of n with
  | None => True
  | Some p => p = lit "xml" \/ p = lit "xmlns" \/ In (lit "xmlns:" ++ p) ns
  end.
Definition attrs_fine (ns : list str) (a : list (str * str)) : Prop := Forall (fun kv => declared ns (fst kv)) a /\ NoDup (map fst a).
Definition tag_fine (ns : list str) (e : event) : Prop :=
  match e with EStart n a | EEmpty n a => declared ns n /\ attrs_fine ns a | _ => True end.
(** The first tag is the root; all tags including this are fine with what it declares. *)
Definition names_fine (evs : list event) : Prop :=
  exists pre n a r, evs = pre ++ EStart n a :: r /\ Forall (fun e => match e with EOther _ | EText _ => True | _ => False end) pre
  /\ Forall (tag_fine (map fst a)) evs.

(** ** What a workbook has to say itself *)

(** Names that the workbook brings along: attributes of styles, elements that are kept as they are. [but]: attributes that are written anyway. *)
Definition attrs_but (ns but : list str) (a : list (str * str)) : Prop := attrs_fine ns a /\ Forall (fun kv => ~ In (fst kv) but) a.
Fixpoint tree_fine (ns : list str) (x : xnode) : Prop :=
  match x with
  | XText _ => True
  | XTag n a c => declared ns n /\ attrs_fine ns a /\ (fix all (l : list xnode) := match l with [] => True | y :: l' => tree_fine ns y /\ all l' end) c
  end.
Definition image_fine (ns : list str) (i : dimage) : Prop := attrs_fine ns (im_attrs i) /\ Forall (tree_fine ns) (im_text i).
Definition dframe_fine (ns : list str) (f : dframe) : Prop := attrs_fine ns (df_attrs f) /\ Forall (image_fine ns) (df_content f).
Definition note_fine (ns : list str) (a : annotation) : Prop :=
  attrs_but ns [lit "office:display"; lit "office:name"] (an_attrs a) /\ Forall (tree_fine ns) (an_text a).
Definition cell_fine (ns : list str) (c : cell) : Prop :=
  (forall l, c_value c = VTextXml l -> Forall (tree_fine ns) l)
  /\ forall x, c_extra c = Some x -> (forall a, x_annotation x = Some a -> note_fine ns a) /\ Forall (dframe_fine ns) (x_frames x).
Definition sheet_fine (ns : list str) (sh : sheet) : Prop := Forall (fun kv => cell_fine ns (snd kv)) (tb_cells sh) /\ Forall (tree_fine ns) (tb_extra sh).
Definition style_fine (ns : list str) (b : sbody) : Prop :=
  attrs_fine ns (sb_attr b) /\ attrs_fine ns (sb_main b) /\ attrs_fine ns (sb_para b) /\ attrs_fine ns (sb_text b) /\ forall l, sb_tabs b = Some l -> Forall (attrs_fine ns) l.
Definition format_fine (ns : list str) (b : fbody) : Prop :=
  attrs_but ns [lit "style:name"] (fb_attr b) /\ attrs_fine ns (fb_text b) /\ Forall (fun p => attrs_fine ns (pt_attr p)) (fb_parts b).
Definition page_fine (ns : list str) (b : pbody) : Prop := attrs_fine ns (pg_props b) /\ attrs_fine ns (pg_header b) /\ attrs_fine ns (pg_footer b).
Definition hf_fine (ns : list str) (h : hfoot) : Prop :=
  Forall (tree_fine ns) (hf_left h) /\ Forall (tree_fine ns) (hf_center h) /\ Forall (tree_fine ns) (hf_right h) /\ Forall (tree_fine ns) (hf_content h).
Definition body_fine (ns : list str) (b : body) : Prop :=
  match b with BStyle _ _ b => style_fine ns b | BFormat _ _ b => format_fine ns b | BPage b => page_fine ns b | BMaster b => forall s, hf_fine ns (mp_hf b s) end.
Definition styles_fine (ns : list str) (b : stylebook) : Prop :=
  (forall f kv, In kv (bk_styles (sk_book b) f) -> body_fine ns (nm_body (snd kv))) /\ Forall (fun kv => attrs_but ns [lit "style:name"] (ft_attr (snd kv))) (sk_fonts b).
Definition message_fine {T} (ns : list str) (o : option (message T)) : Prop := forall m x, o = Some m -> m_text m = Some x -> tree_fine ns x.
Definition valid_fine (ns : list str) (v : validation) : Prop := message_fine ns (vb_err (nm_body v)) /\ message_fine ns (vb_help (nm_body v)).
Definition body_part_fine (ns : list str) (w : workbook) : Prop :=
  Forall (fun s => Forall (tree_fine ns) (sc_body s)) (fst (wb_scripts w)) /\ Forall (fun kv => valid_fine ns (snd kv)) (bk_styles (wb_valids w) FValidation)
  /\ Forall (sheet_fine ns) (wb_sheets w) /\ Forall (tree_fine ns) (wb_extra w).
(** The namespaces of a file before writing: distinct names that begin with xmlns: *)
Definition ns_map_ok (m : amap str) : Prop := NoDup (map fst m) /\ Forall (fun kv => exists p, fst kv = lit "xmlns:" ++ p) m.
(** Metadata for which the prefixes office and meta are enough: nothing of Dublin Core, no links. *)
Definition meta_bare (m : meta) : Prop :=
  MetaModel.m_title m = [] /\ m_description m = [] /\ m_subject m = [] /\ m_creator m = [] /\ m_date m = None /\ m_language m = []
  /\ mt_actuate (m_template m) = None /\ mt_href (m_template m) = None /\ mt_title (m_template m) = None /\ mt_type (m_template m) = None
  /\ ml_actuate (m_reload m) = None /\ ml_href (m_reload m) = None /\ ml_show (m_reload m) = None /\ ml_type (m_reload m) = None /\ mh_show (m_links m) = None.
