(** Elements the readers know, and files that differ in elements they do not know. *)
From Verif Require Import Base Lib XmlModel IndentSpec.

(** The element names the functions of io/read.rs compare with and do something for. Those they name only to do nothing (office:spreadsheet,
    office:event-listeners, table:table-columns, table:table-rows, style:tab-stops, style:background-image) are not among them. *)
Definition library_names : list str := map lit
  ["calcext:conditional-formats"; "config:config-item"; "config:config-item-map-entry"; "config:config-item-map-indexed"; "config:config-item-map-named";
   "config:config-item-set"; "dc:creator"; "dc:date"; "dc:description"; "dc:language"; "dc:subject"; "dc:title"; "draw:frame"; "draw:image"; "loext:fill-character";
   "loext:text"; "meta:auto-reload"; "meta:creation-date"; "meta:document-statistic"; "meta:editing-cycles"; "meta:editing-duration"; "meta:generator";
   "meta:hyperlink-behaviour"; "meta:initial-creator"; "meta:keyword"; "meta:print-date"; "meta:printed-by"; "meta:template"; "meta:user-defined"; "number:am-pm";
   "number:boolean"; "number:boolean-style"; "number:currency-style"; "number:currency-symbol"; "number:date-style"; "number:day"; "number:day-of-week";
   "number:embedded-text"; "number:era"; "number:fill-character"; "number:fraction"; "number:hours"; "number:minutes"; "number:month"; "number:number";
   "number:number-style"; "number:percentage-style"; "number:quarter"; "number:scientific-number"; "number:seconds"; "number:text"; "number:text-content";
   "number:text-style"; "number:time-style"; "number:week-of-year"; "number:year"; "office:annotation"; "office:automatic-styles"; "office:binary-data"; "office:body";
   "office:dde-source"; "office:document"; "office:document-content"; "office:document-meta"; "office:document-settings"; "office:document-styles";
   "office:font-face-decls"; "office:forms"; "office:master-styles"; "office:meta"; "office:script"; "office:scripts"; "office:settings"; "office:styles";
   "script:event-listener"; "style:default-style"; "style:font-face"; "style:footer"; "style:footer-first"; "style:footer-left"; "style:footer-style";
   "style:graphic-properties"; "style:header"; "style:header-first"; "style:header-footer-properties"; "style:header-left"; "style:header-style"; "style:map";
   "style:master-page"; "style:page-layout"; "style:page-layout-properties"; "style:paragraph-properties"; "style:region-center"; "style:region-left";
   "style:region-right"; "style:ruby-properties"; "style:style"; "style:tab-stop"; "style:table-cell-properties"; "style:table-column-properties";
   "style:table-properties"; "style:table-row-properties"; "style:text-properties"; "svg:desc"; "svg:title"; "table:calculation-settings"; "table:consolidation";
   "table:content-validation"; "table:content-validations"; "table:covered-table-cell"; "table:data-pilot-tables"; "table:database-ranges"; "table:dde-links";
   "table:desc"; "table:error-message"; "table:help-message"; "table:label-ranges"; "table:named-expressions"; "table:scenario"; "table:shapes"; "table:table";
   "table:table-cell"; "table:table-column"; "table:table-column-group"; "table:table-header-columns"; "table:table-header-rows"; "table:table-row";
   "table:table-row-group"; "table:table-source"; "table:title"; "table:tracked-changes"; "text:alphabetical-index-auto-mark-file"; "text:dde-connection-decls";
   "text:h"; "text:list"; "text:p"; "text:sequence-decls"; "text:user-field-decls"; "text:variable-decls"]%string.
(** Names are not empty. *)
Definition foreign (n : str) : bool := match n with [] => false | _ => negb (existsb (str_eqb n) library_names) end.
(** What can be left out where only elements are expected: text, and the tags of foreign elements. *)
Definition passed (e : event) : bool :=
  match e with EText _ => true | EStart n _ | EEmpty n _ | EEnd n => foreign n | _ => false end.

(** [sieve st evs evs']: inside the elements [st], innermost first, the second list of events is the first one with some of those events left out, each
    of them where every element around it is structural ([IndentSpec.structural]). Elements that are left out are not among [st]: what is in them
    stays or is left out by the same rule. There is no empty element <office:script/>: see C76_script_refuted. *)
Inductive sieve : list str -> list event -> list event -> Prop :=
| sv_nil st : sieve st [] []
| sv_start st n a r r' : sieve (n :: st) r r' -> sieve st (EStart n a :: r) (EStart n a :: r')
| sv_end st n r r' : sieve st r r' -> sieve (n :: st) (EEnd n :: r) (EEnd n :: r')
| sv_empty st n a r r' : n <> script_name -> sieve st r r' -> sieve st (EEmpty n a :: r) (EEmpty n a :: r')
| sv_text st t r r' : sieve st r r' -> sieve st (EText t :: r) (EText t :: r')
| sv_ref st t r r' : sieve st r r' -> sieve st (ERef t :: r) (ERef t :: r')
| sv_other st t r r' : sieve st r r' -> sieve st (EOther t :: r) (EOther t :: r')
| sv_drop st e r r' : passed e = true -> forallb structural st = true -> sieve st r r' -> sieve st (e :: r) r'.

(** The second file is the first one without some of its foreign elements. *)
Definition unpadded (t t' : str) : Prop :=
  exists evs evs', read_events t = Ok evs /\ read_events t' = Ok evs' /\ sieve [] evs evs'.
