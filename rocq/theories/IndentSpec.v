(** Elements that have elements in them and no text, and files that differ in the text between those only. *)
From Verif Require Import Base Lib XmlModel.

(** Elements of ODF 1.3 part 3 that only have elements in them: the documents (3.1), metadata and settings (4.3, 3.10), fonts and styles (3.14, 3.15, 16),
    validations (9.4.4), and tables with columns, rows and cells (9.1), annotations, frames and images (14.1, 10.4). *)
Definition structural_names : list str := map lit
  ["office:document"; "office:document-content"; "office:document-styles"; "office:document-meta"; "office:document-settings";
   "office:meta"; "office:settings"; "office:scripts"; "office:event-listeners"; "office:font-face-decls"; "office:styles"; "office:automatic-styles";
   "office:master-styles"; "office:body"; "office:spreadsheet";
   "config:config-item-set"; "config:config-item-map-indexed"; "config:config-item-map-named"; "config:config-item-map-entry";
   "style:font-face"; "style:style"; "style:default-style"; "style:paragraph-properties"; "style:tab-stops"; "style:text-properties"; "style:table-properties";
   "style:table-column-properties"; "style:table-row-properties"; "style:table-cell-properties"; "style:graphic-properties"; "style:ruby-properties";
   "style:page-layout"; "style:page-layout-properties"; "style:header-style"; "style:footer-style"; "style:header-footer-properties";
   "style:master-page"; "style:header"; "style:header-first"; "style:header-left"; "style:footer"; "style:footer-first"; "style:footer-left";
   "number:number-style"; "number:currency-style"; "number:percentage-style"; "number:date-style"; "number:time-style"; "number:boolean-style"; "number:text-style";
   "table:content-validations"; "table:content-validation"; "table:table"; "table:table-column-group"; "table:table-header-columns"; "table:table-columns";
   "table:table-row-group"; "table:table-header-rows"; "table:table-rows"; "table:table-row"; "table:table-cell"; "table:covered-table-cell";
   "office:annotation"; "draw:frame"; "draw:image"]%string.
Definition structural (n : str) : bool := existsb (str_eqb n) structural_names.

(** [thin st evs evs']: inside the elements [st], innermost first, the second list of events is the first one with some of the texts left out, each
    of them where every element around it is structural. End tags match. There is no empty element <office:script/>: see C76_script_refuted. *)
Definition script_name : str := lit "office:script".
Inductive thin : list str -> list event -> list event -> Prop :=
| thin_nil st : thin st [] []
| thin_start st n a r r' : thin (n :: st) r r' -> thin st (EStart n a :: r) (EStart n a :: r')
| thin_end st n r r' : thin st r r' -> thin (n :: st) (EEnd n :: r) (EEnd n :: r')
| thin_empty st n a r r' : n <> script_name -> thin st r r' -> thin st (EEmpty n a :: r) (EEmpty n a :: r')
| thin_text st t r r' : thin st r r' -> thin st (EText t :: r) (EText t :: r')
| thin_ref st t r r' : thin st r r' -> thin st (ERef t :: r) (ERef t :: r')
| thin_other st t r r' : thin st r r' -> thin st (EOther t :: r) (EOther t :: r')
| thin_drop st t r r' : forallb structural st = true -> thin st r r' -> thin st (EText t :: r) r'.

(** The second file is the first one without some of the indentation. *)
Definition indented (t t' : str) : Prop :=
  exists evs evs', read_events t = Ok evs /\ read_events t' = Ok evs' /\ thin [] evs evs'.
