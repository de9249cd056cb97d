(** Builders for rich text. *)
From Verif Require Import Base NumModel XmlModel StyleModel FmtModel.

(** text.rs: the types made with the macro [text_tag] (macro_text.rs:1-54). *)
Inductive kind :=
| TextH | TextP | TextSpan | TextA | TextS | TextTab | SoftPageBreak | MetaDate | MetaTime | MetaPageNumber | MetaAuthorName | MetaAuthorInitials | MetaFileName
| MetaSheetName | MetaInitialCreator | MetaCreationDate | MetaCreationTime | MetaDescription | MetaPrintTime | MetaPrintDate | MetaPrintedBy | MetaTitle
| MetaSubject | MetaKeywords | MetaEditingCycles | MetaEditingDuration | MetaModificationTime | MetaModificationDate | MetaCreator | MetaPageCount
| MetaCharacterCount.
(** text.rs:34, 111, 166, 196, 242, 258, 278-333: the second argument of the macro. *)
Definition tag_name (k : kind) : str :=
  match k with
  | TextH => lit "text:h" | TextP => lit "text:p" | TextSpan => lit "text:span" | TextA => lit "text:a" | TextS => lit "text:s" | TextTab => lit "text:tab"
  | SoftPageBreak => lit "text:soft-page-break" | MetaDate => lit "text:date" | MetaTime => lit "text:time" | MetaPageNumber => lit "text:page-number"
  | MetaAuthorName => lit "text:author-name" | MetaAuthorInitials => lit "text:author-initials" | MetaFileName => lit "text:file-name"
  | MetaSheetName => lit "text:sheet-name" | MetaInitialCreator => lit "text:initial-creator" | MetaCreationDate => lit "text:creation-date"
  | MetaCreationTime => lit "text:creation-time" | MetaDescription => lit "text:description" | MetaPrintTime => lit "text:print-time"
  | MetaPrintDate => lit "text:print-date" | MetaPrintedBy => lit "text:printed-by" | MetaTitle => lit "text:title" | MetaSubject => lit "text:subject"
  | MetaKeywords => lit "text:keywords" | MetaEditingCycles => lit "text:editing-cycles" | MetaEditingDuration => lit "text:editing-duration"
  | MetaModificationTime => lit "text:modification-time" | MetaModificationDate => lit "text:modification-date" | MetaCreator => lit "text:creator"
  | MetaPageCount => lit "text:page-count" | MetaCharacterCount => lit "text:character-count"
  end.

(** The methods of the types that set an attribute, with their argument: text.rs:50-110 [TextH], 124-160 [TextP], 173-195 [TextSpan],
    214-233 [TextA], 248-253 [TextS], 268-273 [TextTab]. A style reference is its name. *)
Inductive method :=
| ClassNames (l : list str) | CondstyleName (n : str) | Id (i : str) | ListHeader (b : bool) | OutlineLevel (l : N) | RestartNumbering (b : bool) | StartValue (l : N)
| StyleName (n : str) | XmlId (i : str) | VisitedStyleName (n : str) | Href (u : str) | Count (n : N) | TabRef (n : N).
Definition has (k : kind) (m : method) : bool :=
  match k, m with
  | TextH, (ClassNames _ | CondstyleName _ | Id _ | ListHeader _ | OutlineLevel _ | RestartNumbering _ | StartValue _ | StyleName _ | XmlId _) => true
  | TextP, (ClassNames _ | CondstyleName _ | Id _ | StyleName _ | XmlId _) => true
  | TextSpan, (ClassNames _ | StyleName _) => true
  | TextA, (StyleName _ | VisitedStyleName _ | Href _) => true
  | TextS, Count _ => true
  | TextTab, TabRef _ => true
  | _, _ => false
  end.
(** The attribute and the text a method sets it to. *)
Definition sets (m : method) : str * str :=
  match m with
  | ClassNames l => (lit "text:class-names", fold_left (fun buf n => buf ++ n ++ [32]) l [])
  | CondstyleName n => (lit "text:condstyle-name", n)
  | Id i => (lit "text:id", i)
  | ListHeader b => (lit "text:is-list-header", show_bool b)
  | OutlineLevel l => (lit "text:outlinelevel", show_N l)
  | RestartNumbering b => (lit "text:restart-numbering", show_bool b)
  | StartValue l => (lit "text:start-value", show_N l)
  | StyleName n => (lit "text:style-name", n)
  | XmlId i => (lit "xml:id", i)
  | VisitedStyleName n => (lit "text:visited-style-name", n)
  | Href u => (lit "xlink:href", u)
  | Count n => (lit "text:c", show_N n)
  | TabRef n => (lit "text:tab-ref", show_N n)
  end.

(** xmltree.rs:92-200 [XmlTag]: [new], [set_attr], [add_attr_slice], [add_text], [add_tag]; the methods without a prefix are the same. *)
Record xtag := Tag { tg_name : str; tg_attrs : attrs; tg_content : list xnode }.
Definition xml_new (n : str) : xtag := Tag n [] [].
Definition xml_set_attr (k v : str) (t : xtag) : xtag := Tag (tg_name t) (put_attr k v (tg_attrs t)) (tg_content t).
Definition xml_add_text (s : str) (t : xtag) : xtag := Tag (tg_name t) (tg_attrs t) (tg_content t ++ [XText s]).
Definition xml_add_tag (x : xnode) (t : xtag) : xtag := Tag (tg_name t) (tg_attrs t) (tg_content t ++ [x]).
Definition into_xmltag (t : xtag) : xnode := XTag (tg_name t) (tg_attrs t) (tg_content t).
(** A chain of calls: methods of the type, and [text] and [tag] of macro_text.rs:36-46. *)
Inductive step := Call (m : method) | AddText (s : str) | AddTag (x : xnode).
Definition run_step (t : xtag) (s : step) : xtag :=
  match s with Call m => xml_set_attr (fst (sets m)) (snd (sets m)) t | AddText s => xml_add_text s t | AddTag x => xml_add_tag x t end.
Definition build (k : kind) (l : list step) : xnode := into_xmltag (fold_left run_step l (xml_new (tag_name k))).
