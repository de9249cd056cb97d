(** The two spellings of an element with nothing in it: [<n/>] and [<n></n>]. *)
From Verif Require Import Base Lib XmlModel.

(** The elements for which the spelling makes a difference somewhere (the witnesses are in SpellProps.v). *)
Definition spelling_names : list str := map lit
  ["office:document"; "office:document-content"; "office:document-styles"; "office:document-meta"; "office:document-settings"; "office:settings"; "office:script";
   "meta:generator"; "dc:title"; "dc:description"; "dc:subject"; "meta:keyword"; "meta:initial-creator"; "dc:creator"; "meta:printed-by"; "meta:creation-date"; "dc:date";
   "meta:print-date"; "dc:language"; "meta:editing-cycles"; "meta:editing-duration"; "meta:template"; "meta:auto-reload"; "meta:hyperlink-behaviour"; "meta:document-statistic";
   "meta:user-defined";
   "config:config-item"; "config:config-item-set"; "config:config-item-map-indexed"; "config:config-item-map-named"; "config:config-item-map-entry";
   "number:boolean-style"; "number:date-style"; "number:time-style"; "number:number-style"; "number:currency-style"; "number:percentage-style"; "number:text-style";
   "style:page-layout"; "style:header-style"; "style:footer-style"; "style:master-page";
   "style:header"; "style:header-first"; "style:header-left"; "style:footer"; "style:footer-first"; "style:footer-left";
   "table:content-validation"; "table:table"; "table:table-column-group"; "table:table-header-columns"; "table:table-row-group"; "table:table-header-rows"; "table:table-row";
   "table:table-column"; "text:p"; "office:annotation"; "draw:frame"; "svg:desc"; "svg:title"; "office:binary-data"]%string.
Definition either (n : str) : bool := negb (existsb (str_eqb n) spelling_names).
(** The elements that take in what follows them if they are written [<n/>]; see C47, C61 and C75. *)
Definition swallowing_names : list str := map lit
  ["office:script"; "number:boolean-style"; "number:date-style"; "number:time-style"; "number:number-style"; "number:currency-style"; "number:percentage-style"; "number:text-style";
   "style:page-layout"; "style:master-page"]%string.
Definition swallows (n : str) : bool := existsb (str_eqb n) swallowing_names.

(** [spelt st a b]: [b] is [a] with some elements written the long way. [st] has the elements that are open, innermost first. The attributes
    of an element are different from each other, an element that is rewritten is not inside an element of its own name, and the file has
    no short elements that take in what follows. *)
Inductive spelt : list str -> list event -> list event -> Prop :=
| sp_nil st : spelt st [] []
| sp_start st n a r r' : NoDup (map fst a) -> spelt (n :: st) r r' -> spelt st (EStart n a :: r) (EStart n a :: r')
| sp_end st n r r' : spelt st r r' -> spelt (n :: st) (EEnd n :: r) (EEnd n :: r')
| sp_empty st n a r r' : NoDup (map fst a) -> swallows n = false -> spelt st r r' -> spelt st (EEmpty n a :: r) (EEmpty n a :: r')
| sp_text st t r r' : spelt st r r' -> spelt st (EText t :: r) (EText t :: r')
| sp_ref st t r r' : spelt st r r' -> spelt st (ERef t :: r) (ERef t :: r')
| sp_other st t r r' : spelt st r r' -> spelt st (EOther t :: r) (EOther t :: r')
| sp_pair st n a r r' : NoDup (map fst a) -> either n = true -> ~ In n st -> spelt st r r' -> spelt st (EEmpty n a :: r) (EStart n a :: EEnd n :: r').
Definition respelt (t t' : str) : Prop := exists evs evs', read_events t = Ok evs /\ read_events t' = Ok evs' /\ spelt [] evs evs'.
