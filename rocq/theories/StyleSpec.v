(** Specification of the placement of styles and of what reading keeps of them. *)
From Verif Require Import Base Lib NumSpec RefsModel RefsSpec XmlModel XmlSpec XmlProofs CellModel CellIoModel BookModel ValidProofs StyleModel FlowProofs.

(** ** The styles of a workbook *)

Definition style_kinds : list family := [FTable; FRow; FCol; FCell; FParagraph; FText; FRuby; FGraphic].
Definition format_kinds : list family := [FmtBoolean; FmtNumber; FmtPercentage; FmtCurrency; FmtText; FmtDateTime; FmtTimeDuration].
Definition entry (b : stylebook) (f : family) (s : named body) : Prop := In s (map snd (bk_styles (sk_book b) f)).
Definition found (b : stylebook) (f : family) (k : str) : option (named body) := am_get k (bk_styles (sk_book b) f).

(** ** Where a style belongs *)

Inductive file := StylesXml | ContentXml | FlatXml.
Inductive section := SecStyles | SecAutomatic | SecMasters.
Definition section_tag (s : section) : str :=
  match s with SecStyles => lit "office:styles" | SecAutomatic => lit "office:automatic-styles" | SecMasters => lit "office:master-styles" end.
(** The section of a file a style of that origin and use belongs to, if any: none is for named styles of the origin content in a package.
    Page layouts are automatic styles of any file, master pages are with the styles. *)
Definition belongs (fl : file) (x : body) : option section :=
  match x with
  | BStyle o u _ | BFormat o u _ =>
      match fl, o, u with
      | StylesXml, OStyles, UAutomatic => Some SecAutomatic
      | StylesXml, OStyles, _ => Some SecStyles
      | ContentXml, OContent, UAutomatic => Some SecAutomatic
      | FlatXml, _, UAutomatic => Some SecAutomatic
      | FlatXml, _, _ => Some SecStyles
      | _, _, _ => None
      end
  | BPage _ => Some SecAutomatic
  | BMaster _ => match fl with ContentXml => None | _ => Some SecMasters end
  end.
(** All entries that belong there. *)
Definition kinds : list family := style_kinds ++ format_kinds ++ [FPage; FMasterPage].
Definition section_eqb (a b : section) : bool := match a, b with SecStyles, SecStyles | SecAutomatic, SecAutomatic | SecMasters, SecMasters => true | _, _ => false end.
Definition in_section (fl : file) (sec : section) (s : named body) : bool := match belongs fl (nm_body s) with Some q => section_eqb q sec | None => false end.
Definition members (fl : file) (sec : section) (b : stylebook) : list (family * named body) :=
  flat_map (fun f => map (pair f) (filter (in_section fl sec) (map snd (bk_styles (sk_book b) f)))) kinds.

(** The elements directly inside the elements called [sec] that are inside the outermost one. *)
Fixpoint declared (sec : str) (st : list str) (evs : list event) : list (str * list (str * str)) :=
  match evs with
  | [] => []
  | EStart n a :: r => match st with [s; _] => if str_eqb s sec then (n, a) :: declared sec (n :: st) r else declared sec (n :: st) r | _ => declared sec (n :: st) r end
  | EEmpty n a :: r => match st with [s; _] => if str_eqb s sec then (n, a) :: declared sec st r else declared sec st r | _ => declared sec st r end
  | EEnd _ :: r => declared sec (tl st) r
  | _ :: r => declared sec st r
  end.
(** Events where every element is closed. *)
Inductive balanced : list event -> Prop :=
| bal_nil : balanced []
| bal_flat e r : match e with EStart _ _ | EEnd _ => False | _ => True end -> balanced r -> balanced (e :: r)
| bal_elem n a inner m r : balanced inner -> balanced r -> balanced (EStart n a :: inner ++ EEnd m :: r).
(** Calls for a part of the file that has nothing to do with styles. *)
Definition quiet (lb : bool) (cs : list call) : Prop :=
  exists evs, flows lb cs evs /\ balanced evs
  /\ forall n a, In (EStart n a) evs -> ~ In n [lit "office:font-face-decls"; lit "office:styles"; lit "office:automatic-styles"; lit "office:master-styles"].
(** The values of style:family, and the elements of the value formats. *)
Definition family_value (f : family) : str :=
  match f with
  | FTable => lit "table" | FRow => lit "table-row" | FCol => lit "table-column" | FCell => lit "table-cell" | FParagraph => lit "paragraph"
  | FText => lit "text" | FRuby => lit "ruby" | FGraphic => lit "graphic" | _ => []
  end.
Definition format_element (f : family) : str :=
  match f with
  | FmtBoolean => lit "number:boolean-style" | FmtNumber => lit "number:number-style" | FmtPercentage => lit "number:percentage-style"
  | FmtCurrency => lit "number:currency-style" | FmtText => lit "number:text-style" | FmtDateTime => lit "number:date-style"
  | FmtTimeDuration => lit "number:time-style" | _ => []
  end.
(** The name and the attributes of the element of a style or format. *)
Definition kept_attr (kv : str * str) : bool := negb (str_eqb (fst kv) (lit "style:name")) && negb (str_eqb (fst kv) (lit "style:family")).
Definition opening (f : family) (s : named body) : str * list (str * str) :=
  match nm_body s with
  | BStyle _ UDefault b => (lit "style:default-style", (lit "style:family", family_value f) :: filter kept_attr (sb_attr b))
  | BStyle _ _ b => (lit "style:style", (lit "style:name", nm_name s) :: (lit "style:family", family_value f) :: filter kept_attr (sb_attr b))
  | BFormat _ _ b => (format_element f, (lit "style:name", nm_name s) :: fb_attr b)
  | BPage b => (lit "style:page-layout", (lit "style:name", nm_name s) :: match pg_usage b with Some u => [(lit "style:page-usage", u)] | None => [] end)
  | BMaster b => (lit "style:master-page", (lit "style:name", nm_name s)
      :: match mp_display b with [] => [] | d => [(lit "style:display-name", d)] end
      ++ match mp_page b with Some p => [(lit "style:page-layout-name", p)] | None => [] end
      ++ match mp_next b with Some p => [(lit "style:next-style-name", p)] | None => [] end)
  end.

(** ** What is read of a style *)

Definition nonempty {A} (o : option (list A)) : option (list A) := match o with Some [] => None | _ => o end.
(** The family is kept as an attribute; tab stops come with paragraph properties only. *)
Definition style_read (f : family) (b : sbody) : sbody :=
  SBody ((lit "style:family", family_value f) :: filter kept_attr (sb_attr b)) (sb_main b) (sb_para b) (sb_text b)
    (match sb_para b with [] => None | _ => nonempty (sb_tabs b) end) (nonempty (sb_maps b)).
Definition format_read (b : fbody) : fbody := FBody (fb_attr b) (fb_text b) (fb_parts b) (nonempty (fb_maps b)).
(** A header or footer without content is not read; the texts are as far as adjacent texts are one. *)
Definition hf_same (h h' : hfoot) : Prop :=
  if is_nil (hf_left h ++ hf_center h ++ hf_right h ++ hf_content h) then h' = hf_default
  else hf_display h' = hf_display h /\ map norm (hf_left h') = map norm (hf_left h) /\ map norm (hf_center h') = map norm (hf_center h)
       /\ map norm (hf_right h') = map norm (hf_right h) /\ map norm (hf_content h') = map norm (hf_content h).
Definition master_same (b b' : mbody) : Prop :=
  mp_display b' = mp_display b /\ mp_page b' = mp_page b /\ mp_next b' = mp_next b /\ forall s, hf_same (mp_hf b s) (mp_hf b' s).

(** ** What must hold for that *)

Definition attrs_ok (a : attrs) : Prop := Forall (fun kv => name_ok (fst kv)) a.
Definition uses_main (f : family) : bool := match f with FParagraph | FText => false | _ => true end.
Definition uses_para (f : family) : bool := match f with FCell | FParagraph | FGraphic => true | _ => false end.
Definition uses_text (f : family) : bool := match f with FCell | FParagraph | FGraphic | FText => true | _ => false end.
Definition smap_ok (m : smap) : Prop := match sp_base m with Some r => cellref_u32 r /\ cellref_ok r | None => True end.
Definition style_ok (f : family) (b : sbody) : Prop :=
  In f style_kinds /\ attrs_ok (sb_attr b) /\ attrs_ok (sb_main b) /\ attrs_ok (sb_para b) /\ attrs_ok (sb_text b)
  /\ (forall ts, sb_tabs b = Some ts -> f = FParagraph /\ Forall attrs_ok ts) /\ (forall ms, sb_maps b = Some ms -> f = FCell /\ Forall smap_ok ms)
  /\ (uses_main f = false -> sb_main b = []) /\ (uses_para f = false -> sb_para b = []) /\ (uses_text f = false -> sb_text b = []).
(** Text without a character that is written as a reference. *)
Definition no_refs (t : str) : Prop := Forall (fun c => entity_of c = None) t.
(** [lb]: line breaks are written. *)
Definition part_ok (lb : bool) (p : part) : Prop :=
  attrs_ok (pt_attr p) /\
  match pt_type p with
  | PTextPart | PCurrency | PFill => pt_pos p = None /\ pt_content p <> Some []
  | PNumber =>
      match pt_pos p with
      | None => pt_content p = None
      | Some z => lb = false /\ (-2147483648 <= z <= 2147483647)%Z /\ match pt_content p with Some t => t <> [] /\ no_refs t | None => True end
      end
  | _ => pt_pos p = None /\ pt_content p = None
  end.
Definition format_ok (lb : bool) (f : family) (b : fbody) : Prop :=
  In f format_kinds /\ attrs_ok (fb_attr b) /\ ~ In (lit "style:name") (map fst (fb_attr b)) /\ attrs_ok (fb_text b) /\ Forall (part_ok lb) (fb_parts b).
Definition page_ok (b : pbody) : Prop := attrs_ok (pg_props b) /\ attrs_ok (pg_header b) /\ attrs_ok (pg_footer b).
(** A region: elements, without one like that of the region. With line breaks in the file, nothing. *)
Definition region_ok (lb : bool) (tag : str) (l : list xnode) : Prop := Forall (fun x => lb = false /\ is_tag x /\ names_ok x /\ lacks tag x) l.
(** A header or footer: the paragraphs outside of the regions have text only. *)
Definition hf_ok (lb : bool) (h : hfoot) : Prop :=
  region_ok lb (lit "style:region-left") (hf_left h) /\ region_ok lb (lit "style:region-center") (hf_center h) /\ region_ok lb (lit "style:region-right") (hf_right h)
  /\ Forall (fun x => exists t, x = text_p t /\ t <> []) (hf_content h).
Definition master_ok (lb : bool) (b : mbody) : Prop := forall s, hf_ok lb (mp_hf b s).

Definition body_ok (lb : bool) (f : family) (x : body) : Prop :=
  match x with
  | BStyle _ _ b => style_ok f b
  | BFormat _ _ b => format_ok lb f b
  | BPage b => f = FPage /\ page_ok b
  | BMaster b => f = FMasterPage /\ master_ok lb b
  end.
(** The maps of a workbook, and what can be written as XML. *)
Definition book_ok (lb : bool) (b : stylebook) : Prop :=
  (forall f, f <> FValidation -> NoDup (map fst (bk_styles (sk_book b) f)))
  /\ (forall f k s, f <> FValidation -> In (k, s) (bk_styles (sk_book b) f) -> k <> [] /\ nm_name s = k /\ body_ok lb f (nm_body s))
  /\ NoDup (map fst (sk_fonts b))
  /\ (forall k ft, In (k, ft) (sk_fonts b) -> ft_name ft = k /\ attrs_ok (ft_attr ft) /\ ~ In (lit "style:name") (map fst (ft_attr ft))).

(** The same style with the origin [o] and the use [u]. *)
Definition same_as (f : family) (o : origin) (u : suse) (x y : body) : Prop :=
  match x with
  | BStyle _ _ b => y = BStyle o u (style_read f b)
  | BFormat _ _ b => y = BFormat o u (format_read b)
  | BPage b => y = BPage b
  | BMaster b => exists b', y = BMaster b' /\ master_same b b'
  end.
(** The origin, and the use it is read with: a default value format is a named one then. *)
Definition origin_of (x : body) : origin := match x with BStyle o _ _ | BFormat o _ _ => o | _ => OContent end.
Definition read_use (x : body) : suse := match x with BStyle _ u _ => u | BFormat _ UDefault _ => UNamed | BFormat _ u _ => u | _ => UNamed end.
Definition is_default (x : body) : bool := match x with BStyle _ UDefault _ => true | _ => false end.
(** The names given to styles without one: a default style is written without its name. *)
Definition numbered (f : family) (k : str) : Prop := exists d n, numeral d n /\ k = prefix f ++ d.
(** Fewer styles than numbers for them. *)
Definition small (b : stylebook) : Prop := 5 * N.of_nat (length (flat_map (fun f => bk_styles (sk_book b) f) kinds)) < u32_max.

(** ** Surviving *)

(** The entries with a body [W] are read again, with the origin [og] and the use they had; nothing else is. A default style has a number for a name,
    and is not lost if no other style of the family has such a name. *)
Definition survives (W : body -> Prop) (og : body -> origin) (b b' : stylebook) : Prop :=
  (forall f s, In f kinds -> entry b f s -> W (nm_body s) -> is_default (nm_body s) = false ->
     exists y, found b' f (nm_name s) = Some (Named (nm_name s) y) /\ same_as f (og (nm_body s)) (read_use (nm_body s)) (nm_body s) y)
  /\ (forall f s, In f kinds -> entry b f s -> W (nm_body s) -> is_default (nm_body s) = true ->
     (forall t, entry b f t -> W (nm_body t) -> is_default (nm_body t) = false -> ~ numbered f (nm_name t)) ->
     exists k y, found b' f k = Some (Named k y) /\ numbered f k /\ same_as f (og (nm_body s)) (read_use (nm_body s)) (nm_body s) y)
  /\ (forall f k s', found b' f k = Some s' -> exists s, In f kinds /\ entry b f s /\ W (nm_body s) /\ nm_name s' = k
     /\ same_as f (og (nm_body s)) (read_use (nm_body s)) (nm_body s) (nm_body s') /\ (if is_default (nm_body s) then numbered f k else nm_name s = k)).
(** The first font with the origin styles. *)
Definition first_font (b : stylebook) (ft : font) : Prop :=
  exists l1 l2, map snd (sk_fonts b) = l1 ++ ft :: l2 /\ Forall (fun x => ft_origin x = OContent) l1 /\ ft_origin ft = OStyles.
