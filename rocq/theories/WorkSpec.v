(** What a workbook written to a file and read again should be. The parts are specified in the other files. *)
From Verif Require Import Base BookModel XmlModel XmlSpec HeaderModel TableModel TableSpec CloneModel StyleModel StyleSpec ValidModel ValidProofs MetaModel MetaProofs ConfigModel ConfigSpec ConfigIo WorkModel.

(** An element at the top of the body that is kept as it is: no element inside has its name. *)
Definition extra_ok (x : xnode) : Prop := match x with XTag n _ c => names_ok x /\ root_name_unique n c | XText _ => False end.
(** The sheet without the elements that are kept as they are; with others. *)
Definition with_extra (l : list xnode) (sh : sheet) : sheet :=
  Sheet (tb_name sh) (tb_style sh) (tb_ranges sh) (tb_print sh) (tb_display sh) l (tb_cols sh) (tb_rows sh)
    (tb_gcols sh) (tb_grows sh) (tb_hcols sh) (tb_hrows sh) (tb_cells sh).
Definition bare (sh : sheet) : sheet := with_extra [] sh.
(** The elements in a sheet that stay in it, and those that are written behind it. *)
Definition stays (x : xnode) : bool :=
  match x with
  | XTag n _ _ => existsb (str_eqb n) [lit "table:title"; lit "table:desc"; lit "table:table-source"; lit "office:dde-source"; lit "table:scenario"; lit "office:forms"; lit "table:shapes"]
  | XText _ => false
  end.
Definition leaves (x : xnode) : bool :=
  match x with XTag n _ _ => existsb (str_eqb n) [lit "table:named-expressions"; lit "calcext:conditional-formats"] | XText _ => false end.
(** A sheet that is read again (C23). *)
Definition sheet_fine (sh : sheet) : Prop := sheet_ok (bare sh) /\ header_rows_full sh /\ col_groups_apart sh /\ Forall extra_ok (tb_extra sh).
Definition all_valids (w : workbook) : list validation := map snd (bk_styles (wb_valids w) FValidation).
(** Namespaces: keys that are names beginning with xmlns: *)
Definition ns_ok (m : amap str) : Prop := NoDup (map fst m) /\ Forall (fun kv => name_ok (fst kv) /\ starts_with (lit "xmlns:") (fst kv) = true) m.
(** A workbook without scripts (C38), of parts that are read again: metadata (C37), settings (C35), styles (C45), validations (C39), sheets (C23). *)
Definition work_ok (lb : bool) (w : workbook) : Prop :=
  meta_ok (wb_meta w) /\ sound (wb_config w) /\ settings_ok (plain (wb_config w)) /\ fst (wb_scripts w) = []
  /\ book_ok lb (wb_styles w) /\ small (wb_styles w)
  /\ (Forall valid_ok (all_valids w) /\ Forall (fun v => nm_name v <> []) (all_valids w) /\ NoDup (map nm_name (all_valids w)) /\ 2 * N.of_nat (length (all_valids w)) <= u32_max)
  /\ Forall sheet_fine (wb_sheets w) /\ Forall extra_ok (wb_extra w).
(** Rows with cells are repeated at most a thousand times, or repeat counts are kept. *)
Definition few_repeats (rep : bool) (sh : sheet) : Prop := rep = true \/ forall r n, row_used (tb_cells sh) r -> repeats (tb_rows sh) r n -> n <= 1000.

(** Styles and fonts after a package, and after a flat file (C45). *)
Definition styles_after (b b' : stylebook) : Prop :=
  survives (fun x => belongs StylesXml x <> None \/ belongs ContentXml x <> None) origin_of b b'
  /\ (forall k ft, In (k, ft) (sk_fonts b) -> exists o, am_get k (sk_fonts b') = Some (Font k o (ft_attr ft)) /\ (o = OStyles <-> first_font b ft))
  /\ (forall k ft', am_get k (sk_fonts b') = Some ft' -> exists ft, In (k, ft) (sk_fonts b)).
Definition flat_styles_after (b b' : stylebook) : Prop :=
  survives (fun _ => True) (fun _ => OContent) b b'
  /\ (forall k ft, In (k, ft) (sk_fonts b) -> am_get k (sk_fonts b') = if origin_eqb (ft_origin ft) OContent then Some ft else None)
  /\ (forall k ft', am_get k (sk_fonts b') = Some ft' -> exists ft, In (k, ft) (sk_fonts b)).
(** A namespace of a file: one that was inserted before writing, or one the map had. *)
Definition ns_after (added : amap str) (m m' : amap str) : Prop :=
  forall k, am_get k m' = match am_get k added with Some v => Some v | None => am_get k m end.
(** Only one element of a file is called office:body. *)
Definition is_body (e : event) : bool := match e with EStart n _ => str_eqb n (lit "office:body") | _ => false end.
Definition one_body (text : str) : Prop := forall evs, read_events text = Ok evs -> length (filter is_body evs) = 1%nat.
