(** The attributes the readers look at, element by element, and files that differ in the order of attributes and in other attributes. *)
From Coq Require Import Permutation.
From Verif Require Import Base Lib XmlModel IndentSpec ForeignSpec PanicSpec.

(** What io/read.rs looks at in the elements whose attributes it takes apart. The attributes of other elements (styles and their properties, fonts, parts
    of formats, frames, images, annotations, messages, scripts, regions of headers, the roots of the files and all trees) are kept one by one. *)
Definition attr_table : list (str * list str) := map (fun p => (lit (fst p), map lit (snd p)))
  [("office:meta", []); ("office:settings", []); ("office:scripts", []); ("office:font-face-decls", []); ("office:styles", []); ("office:automatic-styles", []);
   ("office:master-styles", []); ("office:body", []); ("table:content-validations", []);
   ("meta:generator", []); ("dc:title", []); ("dc:description", []); ("dc:subject", []); ("meta:keyword", []); ("meta:initial-creator", []); ("dc:creator", []);
   ("meta:printed-by", []); ("meta:creation-date", []); ("dc:date", []); ("meta:print-date", []); ("dc:language", []); ("meta:editing-cycles", []); ("meta:editing-duration", []);
   ("meta:template", ["meta:date"; "xlink:actuate"; "xlink:href"; "xlink:title"; "xlink:type"]);
   ("meta:auto-reload", ["meta:delay"; "xlink:actuate"; "xlink:href"; "xlink:show"; "xlink:type"]);
   ("meta:hyperlink-behaviour", ["office:targetframe-name"; "xlink:show"]);
   ("meta:document-statistic", ["meta:cell-count"; "meta:object-count"; "meta:ole-object-count"; "meta:table-count"]);
   ("meta:user-defined", ["meta:name"; "meta:value-type"]);
   ("config:config-item", ["config:name"; "config:type"]); ("config:config-item-set", ["config:name"]); ("config:config-item-map-indexed", ["config:name"]);
   ("config:config-item-map-named", ["config:name"]); ("config:config-item-map-entry", ["config:name"]);
   ("script:event-listener", ["script:event-name"; "script:language"; "script:macro-name"; "xlink:actuate"; "xlink:href"; "xlink:type"]);
   ("style:map", ["style:condition"; "style:apply-style-name"; "style:base-cell-address"]);
   ("style:page-layout", ["style:name"; "style:page-usage"]); ("style:header-style", []); ("style:footer-style", []);
   ("style:master-page", ["style:name"; "style:page-layout-name"; "style:display-name"; "style:next-style-name"]);
   ("style:header", ["style:display"]); ("style:header-first", ["style:display"]); ("style:header-left", ["style:display"]);
   ("style:footer", ["style:display"]); ("style:footer-first", ["style:display"]); ("style:footer-left", ["style:display"]);
   ("table:content-validation", ["table:name"; "table:condition"; "table:allow-empty-cell"; "table:base-cell-address"; "table:display-list"]);
   ("table:table", ["table:name"; "table:style-name"; "table:print"; "table:display"; "table:print-ranges"]);
   ("table:table-column-group", ["table:display"]); ("table:table-row-group", ["table:display"]); ("table:table-header-columns", []); ("table:table-header-rows", []);
   ("table:table-column", ["table:number-columns-repeated"; "table:style-name"; "table:default-cell-style-name"; "table:visibility"]);
   ("table:table-row", ["table:number-rows-repeated"; "table:style-name"; "table:default-cell-style-name"; "table:visibility"]);
   ("table:table-cell", ["table:number-columns-repeated"; "table:number-rows-spanned"; "table:number-columns-spanned"; "table:number-matrix-rows-spanned"; "table:number-matrix-columns-spanned";
      "table:content-validation-name"; "office:value-type"; "office:date-value"; "office:time-value"; "office:value"; "office:boolean-value"; "office:string-value"; "office:currency"; "table:formula"; "table:style-name"]);
   ("table:covered-table-cell", ["table:number-columns-repeated"; "table:number-rows-spanned"; "table:number-columns-spanned"; "table:number-matrix-rows-spanned"; "table:number-matrix-columns-spanned";
      "table:content-validation-name"; "office:value-type"; "office:date-value"; "office:time-value"; "office:value"; "office:boolean-value"; "office:string-value"; "office:currency"; "table:formula"; "table:style-name"]);
   ("svg:desc", []); ("svg:title", []); ("office:binary-data", [])]%string.
(** In an element without a meaning for the library no attribute has one. *)
Definition looked_at (n : str) : option (list str) :=
  match find (fun p => str_eqb (fst p) n) attr_table with Some p => Some (snd p) | None => if foreign n then Some [] else None end.
Definition kept (ks : list str) (a : list (str * str)) : list (str * str) := filter (fun kv => existsb (str_eqb (fst kv)) ks) a.
(** Those that are looked at are the same in any order, each of them is there once, and none of them is a text that panics (see C53). *)
Definition jumbled (n : str) (a a' : list (str * str)) : Prop :=
  exists ks, looked_at n = Some ks /\ Permutation (kept ks a) (kept ks a') /\ NoDup (map fst (kept ks a)) /\ Forall attr_calm (kept ks a).
Definition alike (st : list str) (n : str) (a a' : list (str * str)) : Prop := a = a' \/ (forallb structural st = true /\ jumbled n a a').

(** [jumble st evs evs']: both lists of events are the same apart from attributes, which are alike. [st] has the elements around, innermost first. *)
Inductive jumble : list str -> list event -> list event -> Prop :=
| jb_nil st : jumble st [] []
| jb_start st n a a' r r' : alike st n a a' -> jumble (n :: st) r r' -> jumble st (EStart n a :: r) (EStart n a' :: r')
| jb_end st n r r' : jumble st r r' -> jumble (n :: st) (EEnd n :: r) (EEnd n :: r')
| jb_empty st n a a' r r' : n <> script_name -> alike st n a a' -> jumble st r r' -> jumble st (EEmpty n a :: r) (EEmpty n a' :: r')
| jb_text st t r r' : jumble st r r' -> jumble st (EText t :: r) (EText t :: r')
| jb_ref st t r r' : jumble st r r' -> jumble st (ERef t :: r) (ERef t :: r')
| jb_other st t r r' : jumble st r r' -> jumble st (EOther t :: r) (EOther t :: r').
Definition rearranged (t t' : str) : Prop := exists evs evs', read_events t = Ok evs /\ read_events t' = Ok evs' /\ jumble [] evs evs'.
