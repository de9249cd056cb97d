(** An element with nothing in it may be written either way, except for a list of elements. *)
From Verif Require Import Base Lib NumModel XmlModel XmlSpec CellModel CellIoModel DrawModel HeaderModel TableModel CloneModel BookModel ScriptModel ValidModel StyleModel MetaModel ConfigModel WorkModel TermSpec TermProofs SkipSpec SkipProofs SpellSpec SpellProofs.

Theorem C77_ods ign rep c0 f f' : respelt (fl_meta f) (fl_meta f') -> respelt (fl_settings f) (fl_settings f') -> respelt (fl_styles f) (fl_styles f') -> respelt (fl_content f) (fl_content f') ->
  WorkModel.read_ods ign rep c0 f = WorkModel.read_ods ign rep c0 f'.
Proof.
  intros A B C D. unfold WorkModel.read_ods. rewrite (file_respelt _ (work0 c0) _ _ meta_file_calm meta_file_pairs meta_file_shrinks A).
  destruct (read_file meta_file_step (work0 c0) (fl_meta f')) as [w| |]; [|reflexivity|reflexivity]. cbn [bind]. rewrite (file_respelt _ w _ _ settings_file_calm settings_file_pairs settings_file_shrinks B).
  destruct (read_file settings_file_step w (fl_settings f')) as [w1| |]; [|reflexivity|reflexivity]. cbn [bind]. rewrite (file_respelt _ w1 _ _ styles_file_calm styles_file_pairs styles_file_shrinks C).
  destruct (read_file styles_file_step w1 (fl_styles f')) as [w2| |]; [|reflexivity|reflexivity]. cbn [bind]. now rewrite (file_respelt _ w2 _ _ (content_calm ign) (content_pairs ign) (content_shrinks ign) D).
Qed.
Theorem C77_ods_only ign rep c0 f f' : respelt (fl_content f) (fl_content f') -> read_ods_only ign rep c0 f = read_ods_only ign rep c0 f'.
Proof. intros D. unfold read_ods_only. now rewrite (file_respelt _ _ _ _ (content_calm ign) (content_pairs ign) (content_shrinks ign) D). Qed.
Theorem C77_fods ign rep c0 t t' : respelt t t' ->
  WorkModel.read_fods ign rep c0 t = WorkModel.read_fods ign rep c0 t' /\ read_fods_only ign rep c0 t = read_fods_only ign rep c0 t'.
Proof.
  intros A. unfold WorkModel.read_fods, read_fods_only. split.
  - now rewrite (file_respelt _ _ _ _ (fods_calm ign) (fods_pairs ign) (fods_shrinks ign) A).
  - now rewrite (file_respelt _ _ _ _ (fods_only_calm ign) (fods_only_pairs ign) (fods_only_shrinks ign) A).
Qed.

(** ** One element of a text *)

Definition plain_event (e : event) : Prop := match e with EStart _ a => NoDup (map fst a) | EEmpty n a => NoDup (map fst a) /\ swallows n = false | _ => True end.
Lemma nested_spelt evs : forall st, nested st evs = true -> Forall plain_event evs -> spelt st evs evs.
Proof.
  induction evs as [|e evs IH]; intros st N S; [constructor|]. apply Forall_cons_iff in S as (S0 & S). destruct e; cbn [nested plain_event] in *; try (constructor; auto; fail).
  - destruct S0. constructor; auto.
  - destruct st as [|m st]; [discriminate|]. apply andb_true_iff in N as (E & N). apply str_eqb_eq in E. subst m. constructor. now apply IH.
Qed.
Lemma put_spelt ea n a eb : either n = true -> NoDup (map fst a) -> forall st, ~ In n (left_open st ea) -> nested st (ea ++ EEmpty n a :: eb) = true -> Forall plain_event ea -> Forall plain_event eb ->
  spelt st (ea ++ EEmpty n a :: eb) (ea ++ EStart n a :: EEnd n :: eb).
Proof.
  intros E D. induction ea as [|e ea IH]; intros st I0 N S S'.
  - cbn [app left_open nested] in *. constructor; auto. now apply nested_spelt.
  - apply Forall_cons_iff in S as (S0 & S). destruct e; cbn [app nested left_open plain_event] in *; try (constructor; auto; fail).
    + destruct S0. constructor; auto.
    + destruct st as [|m st]; [discriminate|]. apply andb_true_iff in N as (X & N). apply str_eqb_eq in X. subst m. constructor. now apply IH.
Qed.
Lemma put_nested ea n a eb : forall st, nested st (ea ++ EStart n a :: EEnd n :: eb) = nested st (ea ++ EEmpty n a :: eb).
Proof.
  induction ea as [|e ea IH]; intros st; cbn [app nested]; [now rewrite str_eqb_refl|]. destruct e; auto. destruct st; [reflexivity|]. now rewrite IH.
Qed.
(** [x] is the short element, [y] the long one; [a] ends with a tag or is empty, so does nothing that is open there has the name of the element. *)
Theorem C77_one a x y b ea n at' eb : lex (XmlModel.MText []) a = Ok ea -> no_text_last ea -> lex (XmlModel.MText []) x = Ok [EEmpty n at'] -> lex (XmlModel.MText []) y = Ok [EStart n at'; EEnd n] ->
  lex (XmlModel.MText []) b = Ok eb -> nested [] (ea ++ EEmpty n at' :: eb) = true ->
  either n = true -> NoDup (map fst at') -> ~ In n (left_open [] ea) -> Forall plain_event ea -> Forall plain_event eb -> respelt (a ++ x ++ b) (a ++ y ++ b).
Proof.
  intros A L X Y B N E D I0 S S'. exists (ea ++ EEmpty n at' :: eb), (ea ++ EStart n at' :: EEnd n :: eb). unfold read_events. rewrite !(lex_cut_tag a _ ea _ A L), (lex_cut_tag x _ _ b X I), (lex_cut_tag y _ _ b Y I), B. cbn [bind app].
  rewrite put_nested, N. repeat split. now apply put_spelt.
Qed.
Theorem C77_flat ign rep c0 a x y b ea n at' eb : lex (XmlModel.MText []) a = Ok ea -> no_text_last ea -> lex (XmlModel.MText []) x = Ok [EEmpty n at'] -> lex (XmlModel.MText []) y = Ok [EStart n at'; EEnd n] ->
  lex (XmlModel.MText []) b = Ok eb -> nested [] (ea ++ EEmpty n at' :: eb) = true ->
  either n = true -> NoDup (map fst at') -> ~ In n (left_open [] ea) -> Forall plain_event ea -> Forall plain_event eb ->
  WorkModel.read_fods ign rep c0 (a ++ x ++ b) = WorkModel.read_fods ign rep c0 (a ++ y ++ b).
Proof. intros. apply C77_fods. eapply C77_one; eauto. Qed.

(** ** Examples *)

Definition gap (short : bool) (n a : str) : str := if short then lit "<" ++ n ++ a ++ lit "/>" else lit "<" ++ n ++ a ++ lit "></" ++ n ++ lit ">".
Definition ex_book (s : bool) : str := lit "<office:document office:version='1.3'>" ++ gap s (lit "office:meta") [] ++ gap s (lit "office:scripts") [] ++ lit "<office:font-face-decls>" ++ gap s (lit "style:font-face") (lit " style:name='Arial'")
  ++ lit "</office:font-face-decls><office:styles>" ++ gap s (lit "style:style") (lit " style:name='Default' style:family='table-cell'") ++ lit "</office:styles><office:automatic-styles><number:number-style style:name='N1'>"
  ++ gap s (lit "number:number") (lit " number:decimal-places='2'") ++ lit "</number:number-style><style:style style:name='ce1' style:family='table-cell'>" ++ gap s (lit "style:text-properties") (lit " fo:color='#000000'")
  ++ lit "</style:style></office:automatic-styles><office:body><office:spreadsheet>" ++ gap s (lit "table:content-validations") [] ++ lit "<table:table table:name='S'><table:table-column/><table:table-row>"
  ++ gap s (lit "table:table-cell") (lit " office:value-type='float' office:value='7'") ++ gap s (lit "table:covered-table-cell") [] ++ lit "<table:table-cell office:value-type='string'><text:p>a" ++ gap s (lit "text:s") [] ++ lit "b</text:p></table:table-cell>"
  ++ lit "</table:table-row></table:table>" ++ gap s (lit "table:named-expressions") [] ++ lit "</office:spreadsheet></office:body></office:document>".
Lemma ex_respelt : respelt (ex_book true) (ex_book false).
Proof.
  unfold respelt.
  assert (A : exists x, read_events (ex_book true) = Ok x) by (eexists; vm_compute; reflexivity). destruct A as (x & A).
  assert (B : exists y, read_events (ex_book false) = Ok y) by (eexists; vm_compute; reflexivity). destruct B as (y & B).
  exists x, y. split; [exact A|]. split; [exact B|]. vm_compute in A, B. injection A as <-. injection B as <-.
  repeat first [apply sp_nil | apply sp_end | apply sp_text | apply sp_start; [repeat (constructor; [cbn; intuition discriminate|]); constructor|]
    | apply sp_pair; [repeat (constructor; [cbn; intuition discriminate|]); constructor|reflexivity|cbn; intuition discriminate|] | apply sp_empty; [constructor|reflexivity|]].
Qed.
Example C77_fods_ex : WorkModel.read_fods false true (CBranch KSet cm_new) (ex_book true) = WorkModel.read_fods false true (CBranch KSet cm_new) (ex_book false)
  /\ (let* w := WorkModel.read_fods false true (CBranch KSet cm_new) (ex_book true) in Ok (map (fun s => map (fun e => c_value (snd e)) (tb_cells s)) (wb_sheets w), wb_extra w))
     = Ok ([[VNumber (lit "7"); VTextXml [XTag (lit "text:p") [] [XText (lit "a"); XTag (lit "text:s") [] []; XText (lit "b")]]]], [XTag (lit "table:named-expressions") [] []]).
Proof. split; [exact (proj1 (C77_fods _ _ _ _ _ ex_respelt))|vm_compute; reflexivity]. Qed.

(** ** Where the spelling matters *)

(** What is left of a flat file after reading it and writing it again; the number of root elements and the version first. *)
Definition left_of (t : str) : str :=
  match WorkModel.read_fods false true (CBranch KSet (match cm_insert (lit "k") (CBranch KSet cm_new) cm_new with Ok m => m | _ => cm_new end)) t with
  | Ok w => N.of_nat (length (wb_ns w)) :: wb_version w ++ 0 :: match write_fods w [] with Ok x => x | Err => [1] | Panic => [2] end
  | Err => [1]
  | Panic => [2]
  end.
(** The text before the element, its name, its attributes and the text after. *)
Definition witness : Type := str * str * str * str.
Definition filled (short : bool) (w : witness) : str := let '(p, n, a, q) := w in p ++ gap short n a ++ q.
Definition one_sheet : str := lit "<office:body><office:spreadsheet><table:table table:name='S'></table:table></office:spreadsheet></office:body></office:document>".
Definition in_doc (p : str) (n a : string) (q : str) : witness := (lit "<office:document>" ++ p, lit n, lit a, q ++ one_sheet).
Definition in_meta (p n a : string) : witness := in_doc (lit "<office:meta>" ++ lit p) n a (lit "</office:meta>").
Definition said (n : string) : witness := (lit "<office:document><office:meta><" ++ lit n ++ lit ">x</" ++ lit n ++ lit ">", lit n, [], lit "</office:meta>" ++ one_sheet).
Definition a_date (n : string) : witness :=
  (lit "<office:document><office:meta><" ++ lit n ++ lit ">2020-01-02T03:04:05</" ++ lit n ++ lit ">", lit n, [], lit "</office:meta>" ++ one_sheet).
Definition in_set (p n a q : string) : witness := in_doc (lit "<office:settings><config:config-item-set config:name='s'>" ++ lit p) n a (lit q ++ lit "</config:config-item-set></office:settings>").
Definition in_auto (n : string) : witness := in_doc (lit "<office:automatic-styles>") n " style:name='N'" (lit "</office:automatic-styles>").
Definition in_page (n : string) : witness :=
  in_doc (lit "<office:automatic-styles><style:page-layout style:name='P'>") n "" (lit "<style:header-footer-properties fo:margin='1cm'/></style:page-layout></office:automatic-styles>").
Definition in_master (n : string) : witness :=
  in_doc (lit "<office:master-styles><style:master-page style:name='M'><" ++ lit n ++ lit "><text:p>x</text:p></" ++ lit n ++ lit ">") n "" (lit "</style:master-page></office:master-styles>").
Definition in_sheets (p : str) (n a : string) (q : str) : witness :=
  (lit "<office:document><office:body><office:spreadsheet>" ++ p, lit n, lit a, q ++ lit "</office:spreadsheet></office:body></office:document>").
Definition in_table (p n a q : string) : witness := in_sheets (lit "<table:table table:name='S'>" ++ lit p) n a (lit q ++ lit "</table:table>").
Definition a_row : string := "<table:table-row><table:table-cell office:value-type='float' office:value='7'/></table:table-row>".
Definition in_cell (p n a q : string) : witness :=
  in_sheets (lit "<table:table table:name='S'><table:table-row><table:table-cell office:value-type='string'>" ++ lit p) n a (lit q ++ lit "</table:table-cell></table:table-row></table:table>").
Definition witnesses : list witness :=
  [([], lit "office:document", lit " office:version='1.3'", []); in_doc [] "office:settings" "" []; in_doc (lit "<office:scripts>") "office:script" "" (lit "</office:scripts>");
   said "meta:generator"; said "dc:title"; said "dc:description"; said "dc:subject"; said "meta:keyword"; said "meta:initial-creator"; said "dc:creator"; said "meta:printed-by";
   a_date "meta:creation-date"; a_date "dc:date"; a_date "meta:print-date"; said "dc:language"; in_meta "<meta:editing-cycles>3</meta:editing-cycles>" "meta:editing-cycles" ""; in_meta "<meta:editing-duration>PT1H0M0S</meta:editing-duration>" "meta:editing-duration" "";
   in_meta "" "meta:template" " xlink:href='t'"; in_meta "" "meta:auto-reload" " xlink:href='t'"; in_meta "" "meta:hyperlink-behaviour" " office:targetframe-name='t'";
   in_meta "" "meta:document-statistic" " meta:cell-count='4'"; in_meta "" "meta:user-defined" " meta:name='u'";
   in_set "" "config:config-item" " config:name='n' config:type='string'" ""; in_set "" "config:config-item-set" " config:name='n'" ""; in_set "" "config:config-item-map-indexed" " config:name='n'" "";
   in_set "" "config:config-item-map-named" " config:name='n'" ""; in_set "<config:config-item-map-indexed config:name='n'>" "config:config-item-map-entry" "" "</config:config-item-map-indexed>";
   in_auto "number:boolean-style"; in_auto "number:date-style"; in_auto "number:time-style"; in_auto "number:number-style"; in_auto "number:currency-style"; in_auto "number:percentage-style"; in_auto "number:text-style";
   in_auto "style:page-layout"; in_page "style:header-style"; in_page "style:footer-style"; in_doc (lit "<office:master-styles>") "style:master-page" " style:name='M'" (lit "</office:master-styles>");
   in_master "style:header"; in_master "style:header-first"; in_master "style:header-left"; in_master "style:footer"; in_master "style:footer-first"; in_master "style:footer-left";
   in_sheets (lit "<table:table table:name='S'></table:table><table:content-validations>") "table:content-validation" " table:name='v'" (lit "</table:content-validations>");
   in_sheets [] "table:table" " table:name='S'" [];
   in_table "<table:table-column/>" "table:table-column-group" "" a_row; in_table "" "table:table-header-columns" "" a_row; in_table "" "table:table-row-group" "" a_row; in_table "" "table:table-header-rows" "" a_row;
   in_table "" "table:table-row" "" a_row; in_table "" "table:table-column" " table:style-name='c'" a_row;
   in_cell "" "text:p" "" ""; in_cell "" "office:annotation" "" ""; in_cell "" "draw:frame" "" ""; in_cell "<draw:frame>" "svg:desc" "" "</draw:frame>"; in_cell "<draw:frame>" "svg:title" "" "</draw:frame>";
   in_cell "<draw:frame><draw:image>" "office:binary-data" "" "</draw:image></draw:frame>"].
Definition ods_roots : list str := map lit ["office:document-content"; "office:document-styles"; "office:document-meta"; "office:document-settings"]%string.
Definition name_of (w : witness) : str := let '(_, n, _, _) := w in n.
Lemma all_differ : forallb (fun w => negb (str_eqb (left_of (filled true w)) (left_of (filled false w)))) witnesses = true.
Proof. vm_compute. reflexivity. Qed.
Lemma all_named : forallb (fun n => existsb (str_eqb n) ods_roots || existsb (fun w => str_eqb (name_of w) n) witnesses) spelling_names = true.
Proof. vm_compute. reflexivity. Qed.
Lemma find_witness n : In n spelling_names -> ~ In n ods_roots -> exists p a q, left_of (p ++ gap true n a ++ q) <> left_of (p ++ gap false n a ++ q).
Proof.
  intros I0 R. pose proof all_named as A. rewrite forallb_forall in A. specialize (A n I0). apply orb_true_iff in A as [A|A].
  - exfalso. apply R. apply existsb_exists in A as (x & X & E). apply str_eqb_eq in E. now subst.
  - apply existsb_exists in A as (w & W & E). apply str_eqb_eq in E. pose proof all_differ as D. rewrite forallb_forall in D. specialize (D w W). apply negb_true_iff in D. destruct w as (((p & m) & a) & q). cbn [name_of] in E. subst m.
    cbn [filled] in D. exists p, a, q. intros X. rewrite X, str_eqb_refl in D. discriminate.
Qed.
(** "Both spellings mean the same" is false for each of the names: there is a flat file that is read differently. *)
Theorem C77_names_refuted n : In n spelling_names -> ~ In n ods_roots -> exists c0 p a q,
  WorkModel.read_fods false true c0 (p ++ gap true n a ++ q) <> WorkModel.read_fods false true c0 (p ++ gap false n a ++ q).
Proof.
  intros I0 R. destruct (find_witness n I0 R) as (p & a & q & D). eexists _, p, a, q. intros X. apply D. unfold left_of. rewrite X. reflexivity.
Qed.
(** The roots of the files of a package. *)
Definition four (x : bool) (n : str) : files :=
  let f (m : string) := gap (str_eqb (lit m) n && x) (lit m) (lit " xmlns:a='b'") in Files (f "office:document-meta"%string) (f "office:document-settings"%string) (f "office:document-styles"%string) (f "office:document-content"%string).
Definition roots_of (f : files) : list str := match WorkModel.read_ods false true (CBranch KSet cm_new) f with Ok w => map fst (wb_ns w) | _ => [] end.
Theorem C77_roots_refuted : Forall (fun n => exists f f', f = four true n /\ f' = four false n /\ WorkModel.read_ods false true (CBranch KSet cm_new) f <> WorkModel.read_ods false true (CBranch KSet cm_new) f') ods_roots.
Proof.
  assert (D : forallb (fun n => negb (length (roots_of (four true n)) =? length (roots_of (four false n)))%nat) ods_roots = true) by (vm_compute; reflexivity).
  apply Forall_forall. intros n I0. rewrite forallb_forall in D. specialize (D n I0). exists (four true n), (four false n). repeat split. intros X. unfold roots_of in D. rewrite X, Nat.eqb_refl in D. discriminate.
Qed.
(** The long spelling of groups and headers without columns and rows ends in a panic at the beginning of a sheet, the short one is passed over. *)
Theorem C77_panic_refuted : forallb (fun n => match left_of (filled true (in_table "" n "" a_row)), left_of (filled false (in_table "" n "" a_row)) with
    | [2], _ | [1], _ => false | _, [2] => true | _, _ => false end)
  ["table:table-column-group"; "table:table-header-columns"; "table:table-row-group"; "table:table-header-rows"]%string = true.
Proof. vm_compute. reflexivity. Qed.
(** Inside an element of its own name the spelling matters for every name that ends a loop: here a style in a style. *)
Definition cell_styles (t : str) : res (list str) :=
  let* w := WorkModel.read_fods false true (CBranch KSet cm_new) (lit "<office:document><office:styles>" ++ t ++ lit "</office:styles></office:document>") in
  Ok (map (fun kv => match nm_body (snd kv) with BStyle _ _ b => concat (map snd (sb_text b)) | _ => [] end) (bk_styles (sk_book (wb_styles w)) FCell)).
Theorem C77_own_refuted : exists n a b, either n = true /\ cell_styles (a ++ gap true n [] ++ b) = Ok [lit "red"] /\ cell_styles (a ++ gap false n [] ++ b) = Ok [[]].
Proof. exists (lit "style:style"), (lit "<style:style style:name='c' style:family='table-cell'>"), (lit "<style:text-properties fo:color='red'/></style:style>"). repeat split; vm_compute; reflexivity. Qed.
Example C77_one_ex : respelt (lit "<office:document><office:scripts>" ++ gap true (lit "script:event-listener") [] ++ lit "</office:scripts></office:document>")
  (lit "<office:document><office:scripts>" ++ gap false (lit "script:event-listener") [] ++ lit "</office:scripts></office:document>").
Proof.
  eapply (C77_one (lit "<office:document><office:scripts>") _ _ (lit "</office:scripts></office:document>") [EStart (lit "office:document") []; EStart (lit "office:scripts") []] (lit "script:event-listener") []
    [EEnd (lit "office:scripts"); EEnd (lit "office:document")]); try reflexivity; try exact I; try (constructor; fail); [cbn; intuition discriminate|repeat constructor|repeat constructor].
Qed.

Print Assumptions C77_ods.
Print Assumptions C77_ods_only.
Print Assumptions C77_fods.
Print Assumptions C77_one.
Print Assumptions C77_flat.
Print Assumptions C77_names_refuted.
Print Assumptions C77_roots_refuted.
Print Assumptions C77_panic_refuted.
Print Assumptions C77_own_refuted.
