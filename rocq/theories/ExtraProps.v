(** C69: the other elements of a sheet. *)
From Verif Require Import Base Lib OMap NumModel EnumModel RefsModel XmlModel XmlSpec XmlProofs CellModel CellIoModel CellIoProofs HeaderModel TreeProofs TableModel.
From Verif Require Import CellIoSpec ValidModel ValidProps ConfigModel FlowProofs StyleModel StyleSpec TableSpec TableNested TableWhole TableProps CloneModel WorkModel WorkSpec WorkFlow ExtraProofs WorkProofs WorkProps.

(** ** A sheet in a document *)

Definition sheet_doc (lb : bool) (ds : vtype -> option str) (sh : sheet) : res (list event) :=
  let* cs := write_sheet ds sh in read_events (render lb (CDtd (lit "UTF-8") :: CElem t_spreadsheet :: cs ++ [CEnd t_spreadsheet])).
(** A sheet with other elements is read as it is without them, and has those that stay in it. Those that leave it are behind its end. *)
Theorem C69_sheet_partial : forall lb ign ds sh cs, write_sheet ds sh = Ok cs -> sheet_fine sh ->
  exists front evs a sh', sheet_doc lb ds sh = Ok (front ++ EStart t_table a :: evs) /\ Forall (fun e => forall n b, e = EStart n b -> n <> t_table) front
  /\ read_table ign (EStart t_table a :: evs) = Ok (sh', coalesce (EText (nl lb) :: flat_map (node_events lb) (filter leaves (tb_extra sh)) ++ [EEnd t_spreadsheet; EText (nl lb)]))
  /\ table_through lb ign ds (bare sh) = Ok (bare sh')
  /\ map norm (tb_extra sh') = map (fun x => norm (broken lb x)) (filter stays (tb_extra sh)).
Proof.
  intros lb ign ds sh cs W F. destruct (sheet_flow_extra lb ign ds sh cs W F) as (sh' & ts & a & inner & T & Ex & En & Fl & R).
  destruct (flows_doc lb (lit "UTF-8") t_spreadsheet [] cs _ doc_utf8 ltac:(name_lit) (Forall_nil _) Fl) as (head & text & E).
  set (lv := flat_map (node_events lb) (filter leaves (tb_extra sh))) in *.
  exists (EOther head :: emit_text text ++ [EStart t_spreadsheet []]), (coalesce (inner ++ EEnd t_table :: EText (nl lb) :: lv ++ [EEnd t_spreadsheet; EText (nl lb)])), a, (with_extra ts sh').
  split; [|split; [|split; [apply R|split; [rewrite T; destruct sh'; cbn in Ex; subst; reflexivity|exact En]]]].
  - unfold sheet_doc. rewrite W. cbn [bind]. cbn [app] in E. rewrite E. f_equal. cbn [attrs_of app]. rewrite <- !app_assoc. cbn [app]. unfold coalesce. rewrite !coalesce_cons by exact I. cbn [emit_text app].
    f_equal.
  - constructor; [intros; discriminate|]. destruct text; cbn; repeat constructor; intros n b Q; try discriminate; injection Q as <- _; discriminate.
Qed.
(** In every place in a table the elements of both kinds are read into the sheet. *)
Theorem C69_read : forall lb l, Forall extra_ok l -> Forall (fun x => stays x || leaves x = true) l -> exists ts, map norm ts = map (fun x => norm (broken lb x)) l
  /\ forall ign s rest, (exists a e b, rest = a ++ e :: b /\ not_text e) ->
     table_loop ign s MTable (coalesce (flat_map (node_events lb) l ++ rest)) = table_loop ign (on_sheet (fun sh => with_extra (tb_extra sh ++ ts) sh) s) MTable (coalesce rest).
Proof. intros lb l O K. exact (nodes_pass lb l O K). Qed.
(** The tags are balanced. *)
Theorem C69_balanced : forall ds sh cs, write_sheet ds sh = Ok cs -> sheet_fine sh -> calls_nested [] cs.
Proof.
  intros ds sh cs W F. destruct (sheet_flow_extra false false ds sh cs W F) as (_ & _ & _ & _ & _ & _ & _ & (_ & _ & N & _) & _). specialize (N [] [] eq_refl). now rewrite app_nil_r in N.
Qed.

(** ** A workbook *)

Lemma norm_in l : forall l' x, map norm l' = map norm l -> In x l -> exists y, In y l' /\ norm y = norm x.
Proof. intros l' x E I. apply (in_map norm) in I. rewrite <- E in I. apply in_map_iff in I as (y & Ey & I). exists y. auto. Qed.
(** The elements that stay are in their sheet again; those that leave are elements of the workbook. *)
Theorem C69_ods_partial : forall w lm lse lst lc f, work_ok false w ->
  (forall file, In file [lit "meta.xml"; lit "settings.xml"; lit "styles.xml"; lit "content.xml"] -> ns_ok (ns_of file w)) ->
  Permutation.Permutation lm (put_all ns_meta (ns_of (lit "meta.xml") w)) -> Permutation.Permutation lse (put_all ns_settings (ns_of (lit "settings.xml") w)) ->
  Permutation.Permutation lst (put_all ns_styles (ns_of (lit "styles.xml") w)) -> Permutation.Permutation lc (put_all ns_content (ns_of (lit "content.xml") w)) ->
  write_ods w lm lse lst lc = Ok f ->
  forall ign rep c0, Forall (few_repeats rep) (wb_sheets w) -> exists w', read_ods ign rep c0 f = Ok w'
  /\ Forall2 (fun sh sh' => map norm (tb_extra sh') = map norm (filter stays (tb_extra sh))) (wb_sheets w) (wb_sheets w')
  /\ forall sh x, In sh (wb_sheets w) -> In x (tb_extra sh) -> leaves x = true -> exists y, In y (wb_extra w') /\ norm y = norm x.
Proof.
  intros w lm lse lst lc f O N P1 P2 P3 P4 W ign rep c0 Fr. destruct (C51_ods w lm lse lst lc f O N P1 P2 P3 P4 W ign rep c0 Fr) as (w' & R & B & H). exists w'. split; [exact R|].
  split. { clear - B. induction B as [|sh sh' l l' (_ & E) _ IH]; constructor; [now rewrite norm_plain in E|exact IH]. }
  intros sh x I J L. assert (E : map norm (wb_extra w') = map norm (written_extras w)) by (destruct H as (_ & _ & _ & _ & _ & _ & _ & _ & _ & _ & _ & E); exact E).
  apply (norm_in _ _ x E). unfold written_extras. rewrite !in_app_iff. right. left. apply in_flat_map. exists sh. split; [exact I|]. apply filter_In. split; [exact J|exact L].
Qed.

(** ** Examples *)

Definition ex_stay : list xnode :=
  [XTag (lit "table:title") [] [XText (lit "R&D")]; XTag (lit "office:forms") [(lit "form:automatic-focus", lit "false")] []].
Definition ex_leave : list xnode := [XTag (lit "table:named-expressions") [] [XTag (lit "table:named-range") [(lit "table:name", lit "n")] []]].
Definition ex_rich : sheet := with_extra (ex_leave ++ ex_stay ++ [XTag (lit "table:unknown") [] []]) ex_sheet.
Lemma ex_rich_fine : sheet_fine ex_rich.
Proof.
  split; [exact ex_ok|]. split; [exact ex_header_rows|]. split; [exact ex_col_groups|].
  apply Forall_cons; [|apply Forall_cons; [|apply Forall_cons; [|apply Forall_cons; [|constructor]]]].
  - split; [|constructor; [split; [left; reflexivity|exact I]|constructor]]. split; [name_lit|]. split; [constructor|]. split; [|exact I]. split; [name_lit|]. split; [constructor; [name_lit|constructor]|exact I].
  - split; [|constructor; [exact I|constructor]]. split; [name_lit|]. split; [constructor|]. split; exact I.
  - split; [|constructor]. split; [name_lit|]. split; [constructor; [name_lit|constructor]|exact I].
  - split; [|constructor]. split; [name_lit|]. split; [constructor|exact I].
Qed.
Example C69_ex : sheet_fine ex_rich /\ (let* evs := sheet_doc false no_styles ex_rich in
    let* (sh, rest) := read_table false (skipn 3 evs) in Ok (tb_cells sh, tb_cols sh, map norm (tb_extra sh), rest))
  = (let* sh := table_through false false no_styles ex_sheet in Ok (tb_cells sh, tb_cols sh, map norm ex_stay,
      [EStart (lit "table:named-expressions") []; EEmpty (lit "table:named-range") [(lit "table:name", lit "n")]; EEnd (lit "table:named-expressions"); EEnd t_spreadsheet])).
Proof. split; [exact ex_rich_fine|]. vm_compute. reflexivity. Qed.
(** The workbook of the example with these elements in its sheet can be written and read. *)
Definition ex_rich_work : workbook := put_sheets [ex_rich] ex_full.
Lemma other_sheets lb w l : work_ok lb w -> Forall sheet_fine l -> work_ok lb (put_sheets l w).
Proof. destruct w. unfold work_ok, all_valids. cbn. intros (A & B & C & D & E & F & G & _ & H) X. exact (conj A (conj B (conj C (conj D (conj E (conj F (conj G (conj X H)))))))). Qed.
Lemma other_extras lb w l : work_ok lb w -> Forall WorkSpec.extra_ok l -> work_ok lb (put_extra l w).
Proof. destruct w. unfold work_ok, all_valids. cbn. intros (A & B & C & D & E & F & G & H & _) X. exact (conj A (conj B (conj C (conj D (conj E (conj F (conj G (conj H X)))))))). Qed.
Lemma ex_rich_ok : work_ok false ex_rich_work.
Proof. apply other_sheets; [exact ex_work_ok|]. constructor; [exact ex_rich_fine|constructor]. Qed.

(** ** What is wrong *)

(** Names and conditional formats of a sheet become those of the workbook, and an element that the writer does not know is lost. *)
Theorem C69_moved_refuted : exists w, work_ok false w /\ map tb_extra (wb_sheets w) = [ex_leave ++ ex_stay ++ [XTag (lit "table:unknown") [] []]]
  /\ (let* w' := again false true w in Ok (map (fun sh => map norm (tb_extra sh)) (wb_sheets w'), map tag_name (wb_extra w')))
     = Ok ([map norm ex_stay], [lit "table:calculation-settings"; lit "table:named-expressions"; lit "table:named-expressions"]).
Proof. exists ex_rich_work. split; [exact ex_rich_ok|]. split; [reflexivity|]. vm_compute. reflexivity. Qed.
(** Two sheets with a name of their own: the workbook has both, with the same name. *)
Theorem C69_clash_refuted : exists w, work_ok false w /\ (let* w' := again false true w in Ok (map tb_extra (wb_sheets w'), wb_extra w')) = Ok ([[]; []], ex_leave ++ ex_leave).
Proof.
  exists (put_extra [] (put_sheets [with_extra ex_leave ex_sheet; with_extra ex_leave ex_sheet] ex_full)). split; [|vm_compute; reflexivity].
  pose proof ex_rich_fine as (S1 & S2 & S3 & S4). apply Forall_cons_iff in S4 as (S4 & _).
  assert (X : sheet_fine (with_extra ex_leave ex_sheet)) by (split; [exact S1|]; split; [exact S2|]; split; [exact S3|]; constructor; [exact S4|constructor]).
  apply other_extras; [|constructor]. apply other_sheets; [exact ex_work_ok|]. constructor; [exact X|constructor; [exact X|constructor]].
Qed.

Print Assumptions C69_sheet_partial.
Print Assumptions C69_read.
Print Assumptions C69_balanced.
Print Assumptions C69_ods_partial.
Print Assumptions C69_moved_refuted.
Print Assumptions C69_clash_refuted.
