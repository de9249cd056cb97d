(** What the attribute setters ought to do: which attributes belong where, how they are called and which texts they may have. *)
From Verif Require Import Base NumModel RefsModel EnumModel BookModel StyleModel FmtModel SetModel FmtSpec.
From Coq Require Import String.
Local Open Scope string_scope.
Local Open Scope list_scope.
Local Open Scope N_scope.

(** ** Where an attribute belongs *)

(** The list of attributes the project keeps in attr_checklist.txt, by element. Misprints in it are put right: shrink_to-fit, fontpitch, fo:fontsize,
    fontstyle-name-asian, fontweight-asian, rfclanguage-tag-complex, keep-withnext, fo:marginright, draw:stylename, anchor-pagenumber,
    unitsper-em. *)
(** attr_checklist.txt: the attributes marked as handled, and those without a mark. *)
Definition handled (s : slot) : list string :=
  match s with
  (* 1-36 *)
  | Cell_props => [
      "fo:background-color"; "fo:border"; "fo:border-bottom"; "fo:border-left"; "fo:border-right"; "fo:border-top"; "fo:padding"; "fo:padding-bottom";
      "fo:padding-left"; "fo:padding-right"; "fo:padding-top"; "fo:wrap-option"; "style:border-line-width"; "style:border-line-width-bottom";
      "style:border-line-width-left"; "style:border-line-width-right"; "style:border-line-width-top"; "style:cell-protect"; "style:decimal-places";
      "style:diagonal-bl-tr"; "style:diagonal-bl-tr-widths"; "style:diagonal-tl-br"; "style:diagonal-tl-br-widths"; "style:direction";
      "style:glyph-orientation-vertical"; "style:print-content"; "style:repeat-content"; "style:rotation-align"; "style:rotation-angle";
      "style:shadow"; "style:shrink-to-fit"; "style:text-align-source"; "style:vertical-align"; "style:writing-mode"]
  (* 39-45 *)
  | Col_props => [
      "fo:break-after"; "fo:break-before"; "style:column-width"; "style:rel-column-width"; "style:use-optimal-column-width"]
  (* 51-59 *)
  | Row_props => [
      "fo:background-color"; "fo:break-after"; "fo:break-before"; "fo:keep-together"; "style:min-row-height"; "style:row-height";
      "style:use-optimal-row-height"]
  (* 61-81 *)
  | Table_props => [
      "fo:background-color"; "fo:break-after"; "fo:break-before"; "fo:keep-with-next"; "fo:margin"; "fo:margin-bottom"; "fo:margin-left";
      "fo:margin-right"; "fo:margin-top"; "style:may-break-between-rows"; "style:page-number"; "style:rel-width"; "style:shadow"; "style:width";
      "style:writing-mode"; "table:align"; "table:border-model"; "table:display"; "table:tab-color"]
  (* 83-172 *)
  | Text_props => [
      "fo:background-color"; "fo:color"; "fo:country"; "fo:language"; "fo:script"; "style:font-name"; "fo:font-size"; "style:font-size-rel";
      "fo:font-style"; "fo:font-weight"; "fo:font-variant"; "style:country-asian"; "style:language-asian"; "style:script-asian";
      "style:font-name-asian"; "style:font-size-asian"; "style:font-size-rel-asian"; "style:font-style-asian"; "style:font-weight-asian";
      "style:country-complex"; "style:language-complex"; "style:script-complex"; "style:font-name-complex"; "style:font-size-complex";
      "style:font-size-rel-complex"; "style:font-style-complex"; "style:font-weight-complex"; "fo:hyphenate"; "fo:hyphenation-push-char-count";
      "fo:hyphenation-remain-char-count"; "fo:letter-spacing"; "fo:text-shadow"; "fo:text-transform"; "style:font-relief"; "style:letter-kerning";
      "style:text-combine"; "style:text-combine-end-char"; "style:text-combine-start-char"; "style:text-emphasize"; "style:text-line-through-color";
      "style:text-line-through-mode"; "style:text-line-through-style"; "style:text-line-through-text"; "style:text-line-through-text-style";
      "style:text-line-through-type"; "style:text-line-through-width"; "style:text-outline"; "style:text-overline-color"; "style:text-overline-mode";
      "style:text-overline-style"; "style:text-overline-type"; "style:text-overline-width"; "style:text-position"; "style:text-rotation-angle";
      "style:text-rotation-scale"; "style:text-scale"; "style:text-underline-color"; "style:text-underline-mode"; "style:text-underline-style";
      "style:text-underline-type"; "style:text-underline-width"; "style:use-window-font-color"; "text:condition"; "text:display"]
  (* 223-278 *)
  | Para_props => [
      "fo:background-color"; "fo:border"; "fo:border-bottom"; "fo:border-left"; "fo:border-right"; "fo:border-top"; "fo:break-after";
      "fo:break-before"; "fo:hyphenation-keep"; "fo:hyphenation-ladder-count"; "fo:keep-together"; "fo:keep-with-next"; "fo:line-height"; "fo:margin";
      "fo:margin-bottom"; "fo:margin-left"; "fo:margin-right"; "fo:margin-top"; "fo:orphans"; "fo:padding"; "fo:padding-bottom"; "fo:padding-left";
      "fo:padding-right"; "fo:padding-top"; "fo:text-align"; "fo:text-align-last"; "fo:text-indent"; "fo:widows"; "style:auto-text-indent";
      "style:background-transparency"; "style:border-line-width"; "style:border-line-width-bottom"; "style:border-line-width-left";
      "style:border-line-width-right"; "style:border-line-width-top"; "style:contextual-spacing"; "style:font-independent-line-spacing";
      "style:join-border"; "style:justify-single-word"; "style:line-break"; "style:line-height-at-least"; "style:line-spacing"; "style:page-number";
      "style:punctuation-wrap"; "style:register-true"; "style:shadow"; "style:snap-to-layout-grid"; "style:tab-stop-distance"; "style:text-autospace";
      "style:vertical-align"; "style:writing-mode"; "style:writing-mode-automatic"; "text:line-number"; "text:number-lines"]
  (* 404-414 *)
  | Tab_stop => [
      "style:char"; "style:leader-color"; "style:leader-style"; "style:leader-text"; "style:leader-text-style"; "style:leader-type";
      "style:leader-width"; "style:position"; "style:type"]
  (* 418-469 *)
  | Page_props => [
      "fo:background-color"; "fo:border"; "fo:border-bottom"; "fo:border-left"; "fo:border-right"; "fo:border-top"; "fo:margin"; "fo:margin-bottom";
      "fo:margin-left"; "fo:margin-right"; "fo:margin-top"; "fo:padding"; "fo:padding-bottom"; "fo:padding-left"; "fo:padding-right";
      "fo:padding-top"; "fo:page-height"; "fo:page-width"; "style:border-line-width"; "style:border-line-width-bottom";
      "style:border-line-width-left"; "style:border-line-width-right"; "style:border-line-width-top"; "style:first-page-number";
      "style:footnote-max-height"; "style:num-format"; "style:num-letter-sync"; "style:num-prefix"; "style:num-suffix"; "style:paper-tray-name";
      "style:print"; "style:print-orientation"; "style:print-page-order"; "style:scale-to"; "style:scale-to-pages"; "style:shadow";
      "style:table-centering"; "style:writing-mode"]
  (* 472-498 *)
  | Hf_props => [
      "fo:background-color"; "fo:border"; "fo:border-bottom"; "fo:border-left"; "fo:border-right"; "fo:border-top"; "fo:margin"; "fo:margin-bottom";
      "fo:margin-left"; "fo:margin-right"; "fo:margin-top"; "fo:min-height"; "fo:padding"; "fo:padding-bottom"; "fo:padding-left"; "fo:padding-right";
      "fo:padding-top"; "style:border-line-width"; "style:border-line-width-bottom"; "style:border-line-width-left"; "style:border-line-width-right";
      "style:border-line-width-top"; "style:dynamic-spacing"; "style:shadow"; "svg:height"]
  (* 500-539 *)
  | Font_face => [
      "style:font-family-generic"; "style:font-pitch"; "style:name"; "svg:font-family"; "svg:font-stretch"; "svg:font-style"; "svg:font-variant";
      "svg:font-weight"]
  (* 541-568 *)
  | Annotation_attr => [
      "draw:caption-point-x"; "draw:caption-point-y"; "draw:class-names"; "draw:corner-radius"; "draw:id"; "draw:layer"; "draw:name";
      "draw:style-name"; "draw:text-style-name"; "draw:transform"; "draw:z-index"; "office:display"; "office:name"; "svg:height"; "svg:width";
      "svg:x"; "svg:y"; "table:end-cell-address"; "table:end-x"; "table:end-y"; "table:table-background"; "xml:id"]
  (* 647-676 *)
  | Frame_attr => [
      "draw:caption-id"; "draw:class-names"; "draw:copy-of"; "draw:id"; "draw:layer"; "draw:name"; "draw:style-name"; "draw:text-style-name";
      "draw:transform"; "draw:z-index"; "style:rel-height"; "style:rel-width"; "svg:height"; "svg:width"; "svg:x"; "svg:y"; "table:end-cell-address";
      "table:end-x"; "table:end-y"; "table:table-background"; "xml:id"]
  (* 696-704 *)
  | Image_attr => [
      "draw:filter-name"; "draw:mime-type"; "xlink:actuate"; "xlink:href"; "xlink:show"; "xlink:type"; "xml:id"]
  (* not in the list; ODF 1.3 part 3, 16.2 (style:style) and 16.29 (number styles) *)
  | Style_attr => ["style:auto-update"; "style:class"; "style:default-outline-level"; "style:display-name"; "style:master-page-name"; "style:next-style-name"; "style:parent-style-name"]
  | Format_attr => ["number:country"; "number:language"; "number:script"; "number:title"; "number:transliteration-country"; "number:transliteration-format";
      "number:transliteration-language"; "number:transliteration-style"; "style:display-name"; "style:volatile"]
  end.
(** attr_checklist.txt: the attributes marked otherwise: ignored, obsolete, never. *)
Definition unhandled (s : slot) : list string :=
  match s with
  (* 83-172 *)
  | Text_props => [
      "style:script-type"; "style:font-charset"; "fo:font-family"; "style:font-family-generic"; "style:font-pitch"; "style:font-style-name";
      "style:rfc-language-tag"; "style:font-charset-asian"; "style:font-family-asian"; "style:font-family-generic-asian"; "style:font-pitch-asian";
      "style:font-style-name-asian"; "style:rfc-language-tag-asian"; "style:font-charset-complex"; "style:font-family-complex";
      "style:font-family-generic-complex"; "style:font-pitch-complex"; "style:font-style-name-complex"; "style:rfc-language-tag-complex";
      "style:text-blinking"]
  (* 418-469 *)
  | Page_props => [
      "style:layout-grid-base-height"; "style:layout-grid-base-width"; "style:layout-grid-color"; "style:layout-grid-display";
      "style:layout-grid-lines"; "style:layout-grid-mode"; "style:layout-grid-print"; "style:layout-grid-ruby-below"; "style:layout-grid-ruby-height";
      "style:layout-grid-snap-to"; "style:layout-grid-standard-mode"; "style:register-truth-ref-style-name"]
  (* 500-539 *)
  | Font_face => [
      "style:font-adornments"; "style:font-charset"; "svg:accent-height"; "svg:alphabetic"; "svg:ascent"; "svg:bbox"; "svg:cap-height"; "svg:descent";
      "svg:font-size"; "svg:hanging"; "svg:ideographic"; "svg:mathematical"; "svg:overline-position"; "svg:overline-thickness"; "svg:panose-1";
      "svg:slope"; "svg:stemh"; "svg:stemv"; "svg:strikethrough-position"; "svg:strikethrough-thickness"; "svg:underline-position";
      "svg:underline-thickness"; "svg:unicode-range"; "svg:units-per-em"; "svg:v-alphabetic"; "svg:v-hanging"; "svg:v-ideographic";
      "svg:v-mathematical"; "svg:widths"; "svg:x-height"]
  (* 541-568 *)
  | Annotation_attr => [
      "presentation:class-names"; "presentation:style-name"; "text:anchor-page-number"; "text:anchor-type"]
  (* 647-676 *)
  | Frame_attr => [
      "presentation:class"; "presentation:class-names"; "presentation:placeholder"; "presentation:style-name"; "presentation:user-transformed";
      "text:anchor-page-number"; "text:anchor-type"]
  | Style_attr => ["style:data-style-name"; "style:family"; "style:list-level"; "style:list-style-name"; "style:name"; "style:percentage-data-style-name"]
  | Format_attr => ["number:rfc-language-tag"; "style:name"]
  | _ => []
  end.

(** Of single number styles: ODF 1.3 part 3, 19.336, 19.347 and 19.368. *)
Definition handled_by (h : holder) (s : slot) : list string :=
  match h, s with
  | ValueFormat FCurrency, Format_attr => ["number:automatic-order"]
  | ValueFormat FDateTime, Format_attr => ["number:automatic-order"; "number:format-source"]
  | ValueFormat FTimeDuration, Format_attr => ["number:format-source"; "number:truncate-on-overflow"]
  | _, _ => []
  end.
Definition documented (h : holder) (s : slot) (k : str) : Prop := In k (map lit (handled s ++ unhandled s ++ handled_by h s)).
(** The setters that put an attribute where it does not belong. *)
Definition misplaced : list (slot * string) := [
  (Text_props, "fo:font-size-rel"); (Text_props, "style:rotation-angle"); (Page_props, "style:dynamic-spacing"); (Frame_attr, "draw:corner-radius");
  (Annotation_attr, "xml_id"); (Frame_attr, "xml_id"); (Image_attr, "xml_id")].
(** The attributes marked as handled that no setter sets: a field of the type, or nothing at all. *)
Definition by_field : list (slot * string) := [(Font_face, "style:name"); (Annotation_attr, "office:display"); (Annotation_attr, "office:name")].
Definition unset : list (slot * string) := [
  (Text_props, "style:font-size-rel"); (Text_props, "style:text-rotation-angle"); (Text_props, "style:text-scale");
  (Annotation_attr, "draw:name"); (Annotation_attr, "xml:id"); (Frame_attr, "xml:id"); (Image_attr, "xml:id")].
Definition listed (l : list (slot * string)) (s : slot) (k : str) : Prop := In (s, k) (map (fun p => (fst p, lit (snd p))) l).

(** ** How a setter is called *)

(** [set_some_thing] sets some-thing, or ns:some-thing if it is called [set_ns_some_thing]. *)
Definition kebab (fn : str) : str := map (fun c => if c =? 95 then 45 else c) (skipn 4 fn).
Fixpoint cut (c : char) (s : str) : str * option str :=
  match s with [] => ([], None) | x :: r => if x =? c then ([], Some r) else let (a, b) := cut c r in (x :: a, b) end.
(** The setters with a name of their own. *)
Definition own_names : list (string * list string) := [
  ("master-page", ["master-page-name"]); ("next-style", ["next-style-name"]); ("parent-style", ["parent-style-name"]);
  ("rotation-scale", ["text-rotation-scale"]); ("background-transpareny", ["background-transparency"]); ("vertical-align-para", ["vertical-align"]);
  ("font-text-outline", ["text-outline"]); ("col-width", ["column-width"]); ("rel-col-width", ["rel-column-width"]);
  ("use-optimal-col-width", ["use-optimal-column-width"]); ("transliteration-locale", ["transliteration-language"; "transliteration-country"]);
  ("font-italic", ["font-style"]); ("font-italic-asian", ["font-style-asian"]); ("font-italic-complex", ["font-style-complex"]);
  ("font-bold", ["font-weight"]); ("font-bold-asian", ["font-weight-asian"]); ("font-bold-complex", ["font-weight-complex"]);
  ("font-attr", ["font-size"; "font-weight"; "font-style"]); ("font-attr-asian", ["font-size-asian"; "font-weight-asian"; "font-style-asian"]);
  ("font-attr-complex", ["font-size-complex"; "font-weight-complex"; "font-style-complex"]);
  ("locale", ["language"; "country"; "script"]); ("locale-asian", ["language-asian"; "country-asian"; "script-asian"]);
  ("locale-complex", ["language-complex"; "country-complex"; "script-complex"])].
Definition named_for (fn k : str) : Prop :=
  exists ns l, k = ns ++ 58 :: l /\ ~ In 58 ns /\
    (kebab fn = l \/ kebab fn = ns ++ 45 :: l \/ exists p, In p own_names /\ kebab fn = lit (fst p) /\ In l (map lit (snd p))).

(** ** Which texts an attribute may have *)

(** The data types of the ODF 1.3 schema: boolean, nonNegativeInteger, positiveInteger, length, nonNegativeLength, positiveLength, percent,
    zeroToHundredPercent, relativeLength, color, character and the codes of languages, countries and scripts; the angles as 18.3.1 has them. *)
Inductive atom :=
| Word (w : string) | Boolean | NonNegInt | PosInt | Length | NonNegLength | PosLength | PercentText | Percent100 | RelLength | Color | AngleText | OneChar | Code.
Definition is_digit (c : char) : bool := (48 <=? c) && (c <=? 57).
Definition is_hex (c : char) : bool := is_digit c || ((97 <=? c) && (c <=? 102)) || ((65 <=? c) && (c <=? 70)).
Definition is_alnum (c : char) : bool := is_digit c || ((97 <=? c) && (c <=? 122)) || ((65 <=? c) && (c <=? 90)).
Definition some_digits (s : str) : bool := negb (str_eqb s []) && forallb is_digit s.
Definition nonzero (s : str) : bool := existsb (fun c => (49 <=? c) && (c <=? 57)) s.
(** [0-9]+(\.[0-9]* )?|\.[0-9]+ *)
Definition unsigned (s : str) : bool :=
  match cut 46 s with
  | (i, None) => some_digits i
  | (i, Some f) => (some_digits i && forallb is_digit f) || (str_eqb i [] && some_digits f)
  end.
Definition signed (s : str) : bool := match s with c :: r => if c =? 45 then unsigned r else unsigned s | [] => false end.
(** A text followed by one of the units. *)
Definition ending (units : list string) (check : str -> bool) (s : str) : bool :=
  existsb (fun u => let n := (List.length s - List.length (lit u))%nat in str_eqb (skipn n s) (lit u) && check (firstn n s)) units.
Definition length_units : list string := ["cm"; "mm"; "in"; "pt"; "pc"; "px"].
Definition is_a (a : atom) (v : str) : bool :=
  match a with
  | Word w => str_eqb v (lit w)
  | Boolean => str_eqb v (lit "true") || str_eqb v (lit "false")
  | NonNegInt => some_digits v
  | PosInt => some_digits v && nonzero v
  | Length => ending length_units signed v
  | NonNegLength => ending length_units unsigned v
  | PosLength => ending length_units (fun n => unsigned n && nonzero n) v
  | PercentText => ending ["%"] signed v
  | Percent100 => ending ["%"] (fun n => some_digits n && ((List.length n <=? 2)%nat || str_eqb n (lit "100"))) v
  | RelLength => ending ["*"] some_digits v
  | Color => match v with 35 :: h => forallb is_hex h && (List.length h =? 6)%nat | _ => false end
  | AngleText => ending ["deg"; "grad"; "rad"] signed v
  | OneChar => (List.length v =? 1)%nat
  | Code => forallb is_alnum v && (1 <=? List.length v)%nat && (List.length v <=? 8)%nat
  end.
(** Any text; several rows to choose from, a row one text or several with blanks between them, each one of several types; or words out of a list. *)
Inductive texts := Free | Rows (l : list (list (list atom))) | Words (l : list string).
Definition one (l : list atom) (v : str) : Prop := existsb (fun a => is_a a v) l = true.
Fixpoint row (l : list (list atom)) (v : str) : Prop :=
  match l with [] => False | x :: r => match r with [] => one x v | _ => exists a b, v = a ++ 32 :: b /\ one x a /\ row r b end end.
Fixpoint fits (l : list (list (list atom))) (v : str) : Prop := match l with [] => False | r :: q => row r v \/ fits q v end.
Fixpoint words (s : str) : list str :=
  match s with
  | [] => []
  | c :: r => if c =? 32 then words r else match r with [] => [[c]] | d :: _ => if d =? 32 then [c] :: words r else match words r with [] => [[c]] | w :: q => (c :: w) :: q end end
  end.
Definition has_type (t : texts) (v : str) : Prop :=
  match t with
  | Free => True
  | Rows l => fits l v
  | Words l => Forall (fun w => In w (map lit l)) (words v)
  end.
Definition among (l : list string) : texts := Rows [[map Word l]].
Definition just (l : list atom) : texts := Rows [[l]].

Definition sides (k : string) : list string := [k; k ++ "-bottom"; k ++ "-left"; k ++ "-right"; k ++ "-top"]%string.
Definition scripts (ns k : string) : list string := [ns ++ ":" ++ k; "style:" ++ k ++ "-asian"; "style:" ++ k ++ "-complex"]%string.
Definition lines (k : string) : list string := ["style:text-line-through-" ++ k; "style:text-overline-" ++ k; "style:text-underline-" ++ k; "style:leader-" ++ k]%string.
(** The types of the attributes by the schema. Names and references to styles, ids, addresses, cell references, classes and transformations
    are not looked at. A border is a width, a style and a colour, a shadow a colour and two or three lengths, as their setters document. *)
Definition schema : list (list string * texts) := [
  (["fo:background-color"], just [Color; Word "transparent"]);
  (["fo:color"; "table:tab-color"], just [Color]);
  (lines "color", just [Color; Word "font-color"]);
  (sides "fo:border" ++ ["style:diagonal-bl-tr"; "style:diagonal-tl-br"],
    Rows [[[Word "none"]]; [[Length]; map Word ["none"; "hidden"; "dotted"; "dashed"; "solid"; "double"; "groove"; "ridge"; "inset"; "outset"]; [Color]]]);
  (sides "style:border-line-width" ++ ["style:diagonal-bl-tr-widths"; "style:diagonal-tl-br-widths"], Rows [[[PosLength]; [PosLength]; [PosLength]]]);
  (["style:shadow"; "fo:text-shadow"], Rows [[[Word "none"]]; [[Color]; [Length]; [Length]]; [[Color]; [Length]; [Length]; [Length]]]);
  (sides "fo:padding", just [NonNegLength]);
  (["fo:margin"; "fo:margin-bottom"; "fo:margin-top"], just [NonNegLength; PercentText]);
  (["fo:margin-left"; "fo:margin-right"; "fo:text-indent"; "fo:min-height"], just [Length; PercentText]);
  (["fo:wrap-option"], among ["no-wrap"; "wrap"]);
  (["fo:break-before"; "fo:break-after"], among ["auto"; "column"; "page"]);
  (["fo:hyphenation-keep"], among ["auto"; "page"]);
  (["fo:hyphenation-ladder-count"], just [Word "no-limit"; PosInt]);
  (["fo:keep-together"; "fo:keep-with-next"], among ["auto"; "always"]);
  (["fo:line-height"], just [Word "normal"; NonNegLength; PercentText]);
  (["fo:orphans"; "fo:widows"; "style:decimal-places"; "text:line-number"; "draw:z-index"], just [NonNegInt]);
  (["fo:text-align"], among ["start"; "end"; "left"; "right"; "center"; "justify"]);
  (["fo:text-align-last"], among ["start"; "center"; "justify"]);
  (["fo:hyphenation-push-char-count"; "fo:hyphenation-remain-char-count"; "style:scale-to-pages"], just [PosInt]);
  (["style:first-page-number"], just [PosInt; Word "continue"]);
  (["style:default-outline-level"], just [PosInt; Word ""]);
  (["style:page-number"], just [PosInt; Word "auto"]);
  (scripts "fo" "language" ++ scripts "fo" "country" ++ scripts "fo" "script" ++
     ["number:language"; "number:country"; "number:script"; "number:transliteration-language"; "number:transliteration-country"], just [Code]);
  (scripts "fo" "font-size", just [PosLength; PercentText]);
  (scripts "style" "font-size-rel", just [Length]);
  (scripts "fo" "font-style" ++ ["svg:font-style"], among ["normal"; "italic"; "oblique"]);
  (scripts "fo" "font-weight" ++ ["svg:font-weight"], among ["normal"; "bold"; "100"; "200"; "300"; "400"; "500"; "600"; "700"; "800"; "900"]);
  (["fo:font-variant"; "svg:font-variant"], among ["normal"; "small-caps"]);
  (["fo:letter-spacing"], just [Word "normal"; Length]);
  (["fo:text-transform"], among ["none"; "lowercase"; "uppercase"; "capitalize"]);
  (["fo:page-height"; "fo:page-width"; "svg:height"; "svg:width"; "svg:x"; "svg:y"; "table:end-x"; "table:end-y"; "draw:caption-point-x";
    "draw:caption-point-y"; "style:position"; "style:footnote-max-height"; "style:line-spacing"], just [Length]);
  (["style:line-height-at-least"; "style:tab-stop-distance"; "style:min-row-height"; "draw:corner-radius"], just [NonNegLength]);
  (["style:row-height"; "style:column-width"; "style:width"], just [PosLength]);
  (["style:rel-column-width"], just [RelLength]);
  (["style:rel-width"; "style:rel-height"], just [PercentText; Word "scale"; Word "scale-min"]);
  (["style:scale-to"], just [PercentText]);
  (["style:background-transparency"], just [Percent100]);
  (["svg:font-stretch"], among ["normal"; "ultra-condensed"; "extra-condensed"; "condensed"; "semi-condensed"; "semi-expanded"; "expanded"; "extra-expanded"; "ultra-expanded"]);
  (["style:font-family-generic"], among ["roman"; "swiss"; "modern"; "decorative"; "script"; "system"]);
  (["style:font-pitch"], among ["fixed"; "variable"]);
  (["style:cell-protect"], Rows [[map Word ["none"; "hidden-and-protected"; "protected"; "formula-hidden"]]; [[Word "protected"]; [Word "formula-hidden"]]]);
  (["style:direction"; "style:print-page-order"], among ["ltr"; "ttb"]);
  (["style:glyph-orientation-vertical"], among ["auto"; "0"; "0deg"; "0rad"; "0grad"]);
  (["style:rotation-align"], among ["none"; "bottom"; "top"; "center"]);
  (["style:rotation-angle"; "style:text-rotation-angle"], just [AngleText]);
  (["style:text-rotation-scale"], among ["fixed"; "line-height"]);
  (["style:text-align-source"], among ["fix"; "value-type"]);
  (["style:vertical-align"], among ["top"; "middle"; "bottom"; "automatic"; "auto"; "baseline"]);
  (["style:line-break"], among ["normal"; "strict"]);
  (["style:punctuation-wrap"], among ["simple"; "hanging"]);
  (["style:text-autospace"], among ["none"; "ideograph-alpha"]);
  (["style:writing-mode"], among ["lr-tb"; "rl-tb"; "tb-rl"; "tb-lr"; "lr"; "rl"; "tb"; "page"]);
  (["style:font-relief"], among ["none"; "embossed"; "engraved"]);
  (["style:text-position"], Rows [[[PercentText; Word "super"; Word "sub"]]; [[PercentText; Word "super"; Word "sub"]; [PercentText]]]);
  (["style:text-combine"], among ["none"; "letters"; "lines"]);
  (["style:text-combine-start-char"; "style:text-combine-end-char"; "style:char"; "style:leader-text"], just [OneChar]);
  (["style:text-emphasize"], Rows [[[Word "none"]]; [map Word ["none"; "accent"; "dot"; "circle"; "disc"]; map Word ["above"; "below"]]]);
  (lines "mode", among ["continuous"; "skip-white-space"]);
  (lines "style", among ["none"; "solid"; "dotted"; "dash"; "long-dash"; "dot-dash"; "dot-dot-dash"; "wave"]);
  (lines "type", among ["none"; "single"; "double"]);
  (lines "width", just (map Word ["auto"; "normal"; "bold"; "dash"; "thin"; "medium"; "thick"] ++ [PosInt; PercentText; PosLength]));
  (["style:print"], Words ["headers"; "grid"; "annotations"; "objects"; "charts"; "drawings"; "formulas"; "zero-values"]);
  (["style:print-orientation"], among ["landscape"; "portrait"]);
  (["style:table-centering"], among ["none"; "horizontal"; "vertical"; "both"]);
  (["style:type"], among ["left"; "center"; "right"; "char"]);
  (["table:align"], among ["left"; "center"; "right"; "margins"]);
  (["table:border-model"], among ["collapsing"; "separating"]);
  (["text:condition"], among ["none"]);
  (["text:display"], among ["true"; "none"; "condition"]);
  (["xlink:actuate"], among ["onLoad"; "onRequest"]);
  (["xlink:show"], among ["new"; "replace"; "embed"; "none"]);
  (["xlink:type"], among ["simple"]);
  (["number:transliteration-style"], among ["short"; "medium"; "long"]);
  (["number:format-source"], among ["fixed"; "language"]);
  (["style:print-content"; "style:repeat-content"; "style:shrink-to-fit"; "style:auto-text-indent"; "style:contextual-spacing";
    "style:font-independent-line-spacing"; "style:join-border"; "style:justify-single-word"; "style:register-true"; "style:snap-to-layout-grid";
    "style:writing-mode-automatic"; "text:number-lines"; "style:letter-kerning"; "style:text-outline"; "style:use-window-font-color";
    "style:dynamic-spacing"; "style:use-optimal-column-width"; "style:use-optimal-row-height"; "style:may-break-between-rows"; "style:num-letter-sync";
    "style:volatile"; "style:auto-update"; "fo:hyphenate"; "table:display"; "table:table-background"; "number:automatic-order";
    "number:truncate-on-overflow"], just [Boolean]);
  (["style:master-page-name"; "style:next-style-name"; "style:parent-style-name"; "style:font-name"; "style:font-name-asian"; "style:font-name-complex";
    "style:text-line-through-text"; "style:text-line-through-text-style"; "style:num-format"; "style:num-prefix"; "style:num-suffix";
    "style:paper-tray-name"; "style:leader-text-style"; "style:display-name"; "style:class"; "svg:font-family"; "table:end-cell-address";
    "draw:caption-id"; "draw:name"; "draw:class-names"; "draw:id"; "draw:layer"; "draw:style-name"; "draw:text-style-name"; "draw:transform";
    "draw:copy-of"; "draw:filter-name"; "draw:mime-type"; "xlink:href"; "number:title"; "number:transliteration-format"; "xml:id"], Free)].
Definition lookup (k : str) : option texts := option_map snd (find (fun p => existsb (fun n => str_eqb k (lit n)) (fst p)) schema).
(** A paragraph and a cell align vertically in different ways, and the width of a table knows no scale. *)
Definition here (s : slot) (k v : str) : Prop :=
  (k = lit "style:vertical-align" -> In v (map lit (match s with Cell_props => ["top"; "middle"; "bottom"; "automatic"] | _ => ["top"; "middle"; "bottom"; "auto"; "baseline"] end))) /\
  (k = lit "style:rel-width" -> s = Table_props -> is_a PercentText v = true).
Definition allowed (s : slot) (k v : str) : Prop := match lookup k with Some t => has_type t v /\ here s k v | None => False end.

(** ** Which arguments are sound *)

(** The lengths and the percentages and angles among the arguments of a setter. *)
Definition opt_list {A} (o : option A) : list A := match o with Some x => [x] | None => [] end.
Definition percent (p : Percent) : list str := match p with Percent_Percent v => [v] end.
Definition angle (a : Angle) : list str := match a with Angle_Deg v | Angle_Grad v | Angle_Rad v => [v] end.
Definition lengths (s : setter) : list length_ :=
  match s with
  | style_set_diagonal_bl_tr x0 _ _ | style_set_diagonal_tl_br x0 _ _ | style_set_line_height_at_least x0 | style_set_line_spacing x0 |
    style_set_tab_stop_distance x0 | style_set_col_width x0 | style_set_footnote_max_height x0 | style_set_min_row_height x0 |
    style_set_row_height x0 | style_set_width x0 | style_set_position x0 | fo_set_border x0 _ _ | fo_set_border_bottom x0 _ _ |
    fo_set_border_left x0 _ _ | fo_set_border_right x0 _ _ | fo_set_border_top x0 _ _ | fo_set_padding x0 | fo_set_padding_bottom x0 |
    fo_set_padding_left x0 | fo_set_padding_right x0 | fo_set_padding_top x0 | fo_set_page_height x0 | fo_set_page_width x0 | svg_set_height x0 |
    svg_set_width x0 | svg_set_x x0 | svg_set_y x0 | table_set_table_end_x x0 | table_set_table_end_y x0 | draw_set_draw_caption_point_x x0 |
    draw_set_draw_caption_point_y x0 => [x0]
  | style_set_diagonal_bl_tr_widths x0 x1 x2 | style_set_diagonal_tl_br_widths x0 x1 x2 | fo_set_border_line_width x0 x1 x2 |
    fo_set_border_line_width_bottom x0 x1 x2 | fo_set_border_line_width_left x0 x1 x2 | fo_set_border_line_width_right x0 x1 x2 |
    fo_set_border_line_width_top x0 x1 x2 => [x0] ++ [x1] ++ [x2]
  | style_set_shadow x0 x1 x2 _ | fo_set_text_shadow x0 x1 x2 _ => [x0] ++ [x1] ++ opt_list x2
  | style_set_font_size_asian (FontSize_Length x) | style_set_font_size_rel_asian (FontSize_Length x) |
    style_set_font_attr_asian (FontSize_Length x) _ _ | style_set_font_size_complex (FontSize_Length x) |
    style_set_font_size_rel_complex (FontSize_Length x) | style_set_font_attr_complex (FontSize_Length x) _ _ |
    style_set_text_line_through_width (LineWidth_Length x) | style_set_text_overline_width (LineWidth_Length x) |
    style_set_text_underline_width (LineWidth_Length x) | style_set_leader_width (LineWidth_Length x) | fo_set_line_height (LineHeight_Length x) |
    fo_set_margin (Margin_Length x) | fo_set_margin_bottom (Margin_Length x) | fo_set_margin_left (Margin_Length x) |
    fo_set_margin_right (Margin_Length x) | fo_set_margin_top (Margin_Length x) | fo_set_text_indent (Indent_Length x) |
    fo_set_font_size (FontSize_Length x) | fo_set_font_size_rel (FontSize_Length x) | fo_set_font_attr (FontSize_Length x) _ _ |
    fo_set_letter_spacing (LetterSpacing_Length x) | fo_set_min_height (LengthPercent_Length x) => [x]
  | _ => []
  end.
Definition numbers (s : setter) : list str :=
  match s with
  | style_set_rotation_angle x0 => angle x0
  | style_set_background_transpareny x0 | style_set_scale_to x0 => percent x0
  | style_set_font_size_asian (FontSize_Percent x) | style_set_font_size_rel_asian (FontSize_Percent x) |
    style_set_font_attr_asian (FontSize_Percent x) _ _ | style_set_font_size_complex (FontSize_Percent x) |
    style_set_font_size_rel_complex (FontSize_Percent x) | style_set_font_attr_complex (FontSize_Percent x) _ _ |
    style_set_text_line_through_width (LineWidth_Percent x) | style_set_text_overline_width (LineWidth_Percent x) |
    style_set_text_underline_width (LineWidth_Percent x) | style_set_rel_width (RelativeScale_Percent x) |
    style_set_rel_height (RelativeScale_Percent x) | style_set_leader_width (LineWidth_Percent x) | fo_set_line_height (LineHeight_Percent x) |
    fo_set_margin (Margin_Percent x) | fo_set_margin_bottom (Margin_Percent x) | fo_set_margin_left (Margin_Percent x) |
    fo_set_margin_right (Margin_Percent x) | fo_set_margin_top (Margin_Percent x) | fo_set_text_indent (Indent_Percent x) |
    fo_set_font_size (FontSize_Percent x) | fo_set_font_size_rel (FontSize_Percent x) | fo_set_font_attr (FontSize_Percent x) _ _ |
    fo_set_min_height (LengthPercent_Percent x) => percent x
  | style_set_text_position (TextPosition_Percent x) x1 => percent x ++ flat_map percent (opt_list x1)
  | style_set_text_position _ x1 => flat_map percent (opt_list x1)
  | _ => []
  end.

(** A float that is neither infinite nor NaN nor minus zero, and lengths in one of the units of ODF. *)
Definition sound_number (v : str) : Prop := signed v = true /\ (exists c r, v = c :: r /\ (c = 45 -> nonzero r = true)).
Definition sound_length (l : length_) : Prop := match l with Len v u => sound_number v /\ u <> Em | LDefault => False end.
Definition positive_length (l : length_) : Prop := match l with Len v _ => unsigned v = true /\ nonzero v = true | LDefault => False end.
Definition code (s : str) : Prop := is_a Code s = true.
Definition sound_locale (l : locale) : Prop :=
  code (lo_lang l) /\ (forall s, lo_script l = Some s -> code s) /\ (forall r, lo_region l = Some r -> code r).
(** The parts of a colour are bytes. *)
Definition byte_color (c : rgb) : Prop := c_r c < 256 /\ c_g c < 256 /\ c_b c < 256.
Definition colors (s : setter) : list rgb :=
  match s with
  | style_set_diagonal_bl_tr _ _ c | style_set_diagonal_tl_br _ _ c | fo_set_border _ _ c | fo_set_border_bottom _ _ c | fo_set_border_left _ _ c
  | fo_set_border_right _ _ c | fo_set_border_top _ _ c | style_set_shadow _ _ _ c | fo_set_text_shadow _ _ _ c | style_set_text_line_through_color c
  | style_set_text_overline_color c | style_set_text_underline_color c | style_set_leader_color c | fo_set_background_color c | fo_set_color c
  | table_set_tab_color c => [c]
  | _ => []
  end.
Definition whole (v : str) : Prop := some_digits v = true.
Definition sound (sl : slot) (s : setter) : Prop :=
  Forall sound_length (lengths s) /\ Forall sound_number (numbers s) /\ Forall byte_color (colors s) /\
  match s with
  (* lengths greater than zero *)
  | style_set_diagonal_bl_tr_widths _ _ _ | style_set_diagonal_tl_br_widths _ _ _ | fo_set_border_line_width _ _ _ | fo_set_border_line_width_bottom _ _ _
  | fo_set_border_line_width_left _ _ _ | fo_set_border_line_width_right _ _ _ | fo_set_border_line_width_top _ _ _ | style_set_col_width _
  | style_set_row_height _ | style_set_width _ | fo_set_font_size _ | style_set_font_size_asian _ | style_set_font_size_complex _
  | fo_set_font_attr _ _ _ | style_set_font_attr_asian _ _ _ | style_set_font_attr_complex _ _ _ => Forall positive_length (lengths s)
  (* widths of lines: lengths and counts greater than zero *)
  | style_set_text_line_through_width (LineWidth_Int n) | style_set_text_overline_width (LineWidth_Int n) | style_set_text_underline_width (LineWidth_Int n)
  | style_set_leader_width (LineWidth_Int n) => 1 <= n
  | style_set_text_line_through_width _ | style_set_text_overline_width _ | style_set_text_underline_width _ | style_set_leader_width _ =>
      Forall positive_length (lengths s)
  (* counts greater than zero *)
  | style_set_default_outline_level n | style_set_page_number (PageNumber_Number n) | style_set_first_page_number n | style_set_scale_to_pages n
  | fo_set_hyphenation_push_char_count n | fo_set_hyphenation_remain_char_count n | fo_set_hyphenation_ladder_count (HyphenationLadderCount_Count n) => 1 <= n
  (* what no argument, or not every one, gets right *)
  | fo_set_hyphenation_ladder_count HyphenationLadderCount_NoLimit => False
  | fo_set_text_align TextAlign_Inside | fo_set_text_align TextAlign_Outside => False
  | style_set_glyph_orientation_vertical (GlyphOrientation_Angle a) => angle a = [lit "0"]
  | style_set_background_transpareny (Percent_Percent v) => whole v /\ ((List.length v <= 2)%nat \/ v = lit "100")
  | style_set_rel_col_width v => whole v
  | style_set_font_size_rel_asian (FontSize_Percent _) | style_set_font_size_rel_complex (FontSize_Percent _) => False
  | style_set_rel_width r => sl = Table_props -> match r with RelativeScale_Percent _ => True | _ => False end
  | fo_set_font_size_rel _ => False
  | draw_set_draw_corner_radius _ => False
  | xlink_set_xlink_actuate _ => False
  | xlink_set_xlink_type t => t = XSimple
  | xml_set_xml_id _ => False
  (* locales *)
  | style_set_locale_asian l | style_set_locale_complex l | fo_set_locale l | number_set_locale l | number_set_transliteration_locale l => sound_locale l
  | _ => True
  end.

(** ** Locales *)

(** The subtags of a locale value: a language of two or three small letters, a script of a capital and three small letters, a region of two
    capitals or three digits. *)
Definition small (c : char) : Prop := 97 <= c <= 122.
Definition capital (c : char) : Prop := 65 <= c <= 90.
Definition digit (c : char) : Prop := 48 <= c <= 57.
Definition language_tag (s : str) : Prop := Forall small s /\ (List.length s = 2%nat \/ List.length s = 3%nat).
Definition script_tag (s : str) : Prop := exists c r, s = c :: r /\ capital c /\ Forall small r /\ List.length r = 3%nat.
Definition region_tag (s : str) : Prop := Forall capital s /\ List.length s = 2%nat \/ Forall digit s /\ List.length s = 3%nat.
Definition canonical (l : locale) : Prop :=
  language_tag (lo_lang l) /\ (forall s, lo_script l = Some s -> script_tag s) /\ (forall r, lo_region l = Some r -> region_tag r).
