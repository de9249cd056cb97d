(** C71: which sheets and workbooks can be written. *)
From Verif Require Import Base Lib OMap RefsModel XmlModel CellModel HeaderModel HeaderSpec NumModel CellIoModel TableModel TableSpec TableProps BookModel ValidProofs.
From Verif Require Import MetaModel MetaProofs ConfigModel ConfigSpec StyleModel StyleSpec CloneModel CloneProps WorkModel WorkSpec WorkProps FitSpec FitProofs FitWork.
From Coq Require Import Permutation.

(** A sheet within the grid is written if nothing overlaps, and otherwise refused with an error; there is no panic. *)
Theorem C71_sheet : forall ds sh, inside_grid sh -> row_groups_writable sh ->
  (nothing_overlaps sh -> exists cs, write_sheet ds sh = Ok cs) /\ (~ nothing_overlaps sh -> write_sheet ds sh = Err).
Proof. intros ds sh I G. destruct (sheet_out ds sh I G) as [(N & E)|(N & E)]; split; auto; contradiction. Qed.

(** A package of a workbook whose parts can be read again: written, if there is a sheet and nothing overlaps in the sheets. *)
Theorem C71_ods : forall w lm lse lst lc, work_ok false w -> Forall (fun sh => inside_grid sh /\ row_groups_writable sh) (wb_sheets w) ->
  (wb_sheets w <> [] /\ Forall nothing_overlaps (wb_sheets w) -> exists f, write_ods w lm lse lst lc = Ok f)
  /\ (~ (wb_sheets w <> [] /\ Forall nothing_overlaps (wb_sheets w)) -> write_ods w lm lse lst lc = Err).
Proof.
  intros w lm lse lst lc (_ & Hs & Hc & _ & Hb & _ & Hv & _ & _) F. pose proof (book_total _ _ Hb) as B.
  unfold write_ods, writable_book. destruct (wb_sheets w) as [|s0 l0] eqn:El; [split; [intros (N & _); contradiction|reflexivity]|]. rewrite <- El in *. cbn [bind].
  unfold settings_calls. destruct (ods_settings_total (root_attrs w lse) _ Hs Hc) as (a & ->). cbn [bind].
  unfold styles_calls, styles_doc. destruct (office_total _ OStyles B) as (b1 & ->). destruct (automatic_total _ OStyles B) as (b2 & ->). destruct (masters_total _ B) as (b3 & ->). cbn [bind].
  unfold content_calls, content_doc. destruct (automatic_total _ OContent B) as (b4 & ->).
  destruct (body_out w (proj1 Hv) F) as [(N & c & ->)|(N & ->)]; cbn [bind].
  - split; [intros _; eauto|]. intros X. exfalso. apply X. split; [rewrite El; discriminate|exact N].
  - split; [intros (_ & Y); contradiction|reflexivity].
Qed.

(** The flat file. *)
Theorem C71_fods : forall w l, work_ok true w -> Forall (fun sh => inside_grid sh /\ row_groups_writable sh) (wb_sheets w) ->
  (wb_sheets w <> [] /\ Forall nothing_overlaps (wb_sheets w) -> exists t, write_fods w l = Ok t)
  /\ (~ (wb_sheets w <> [] /\ Forall nothing_overlaps (wb_sheets w)) -> write_fods w l = Err).
Proof.
  intros w l (_ & Hs & Hc & _ & Hb & _ & Hv & _ & _) F. pose proof (convert_total _ _ Hb) as B.
  unfold write_fods, writable_book. destruct (wb_sheets w) as [|s0 l0] eqn:El; [split; [intros (N & _); contradiction|reflexivity]|]. rewrite <- El in *. cbn [bind].
  unfold fods_calls. destruct (settings_total _ Hs Hc) as (a & ->). cbn [bind]. unfold fods_doc. cbv zeta.
  destruct (office_total _ OContent B) as (b1 & ->). destruct (automatic_total _ OContent B) as (b2 & ->). destruct (masters_total _ B) as (b3 & ->).
  destruct (body_out w (proj1 Hv) F) as [(N & c & ->)|(N & ->)]; cbn [bind].
  - split; [intros _; eauto|]. intros X. exfalso. apply X. split; [rewrite El; discriminate|exact N].
  - split; [intros (_ & Y); contradiction|reflexivity].
Qed.

(** So saving and loading such a workbook succeeds, with what C51 says about the result. *)
Theorem C71_saved : forall w, work_ok false w ->
  Forall (fun sh => inside_grid sh /\ row_groups_writable sh /\ nothing_overlaps sh) (wb_sheets w) -> wb_sheets w <> [] ->
  (forall file, In file [lit "meta.xml"; lit "settings.xml"; lit "styles.xml"; lit "content.xml"] -> ns_ok (ns_of file w)) ->
  forall ign rep c0, Forall (few_repeats rep) (wb_sheets w) ->
  forall lm lse lst lc, Permutation lm (put_all ns_meta (ns_of (lit "meta.xml") w)) -> Permutation lse (put_all ns_settings (ns_of (lit "settings.xml") w)) ->
  Permutation lst (put_all ns_styles (ns_of (lit "styles.xml") w)) -> Permutation lc (put_all ns_content (ns_of (lit "content.xml") w)) ->
  exists f w', write_ods w lm lse lst lc = Ok f /\ read_ods ign rep c0 f = Ok w'
    /\ Forall2 (sheet_back false ign rep (wb_defaults w)) (wb_sheets w) (wb_sheets w')
    /\ wb_meta w' = meta_back (wb_meta w) /\ plain (wb_config w') = strip (plain (wb_config w)) /\ styles_after (wb_styles w) (wb_styles w').
Proof.
  intros w Hw F Ne Hns ign rep c0 Fr lm lse lst lc P1 P2 P3 P4.
  assert (F1 : Forall (fun sh => inside_grid sh /\ row_groups_writable sh) (wb_sheets w)) by (eapply Forall_impl; [|exact F]; intros ? (? & ? & _); auto).
  assert (F2 : Forall nothing_overlaps (wb_sheets w)) by (eapply Forall_impl; [|exact F]; intros ? (_ & _ & ?); auto).
  destruct (proj1 (C71_ods w lm lse lst lc Hw F1) (conj Ne F2)) as (f & E). exists f.
  destruct (C51_ods w lm lse lst lc f Hw Hns P1 P2 P3 P4 E ign rep c0 Fr) as (w' & R & A & _ & _ & _ & _ & _ & M & _ & C & _ & S & _).
  exists w'. exact (conj E (conj R (conj A (conj M (conj C S))))).
Qed.

(** ** Examples *)


(** A sheet with a cell spanning others, repeated cells and rows, headers, a group of one row that has cells and one of rows some of which have none. *)
Definition fit_cells : cells :=
  [((1, 0), Cell (VText (lit "a")) None None 1 (Some (CExt None (CSpan 2 2) span1 None []))); ((1, 3), Cell (CellModel.VBool true) None None 4 None);
   ((2, 1), tcell "c"); ((6, 0), tcell "d")].
Definition fit_rows : hmap rowattr := [(2, mkHdr (ra "r" Visible 2) 1)].
Definition fit_sheet (gr : list grouped) : sheet := Sheet (lit "S") None None true true [] ex_cols fit_rows [mkGrp 0 1 true] gr (Some (0, 0)) (Some (0, 0)) fit_cells.
Definition inside (kv : pos * cell) : bool :=
  let '((r, c), d) := kv in
  (r + 1 <=? u32_max) && (1 <=? c_repeat d) && (c + c_repeat d <=? u32_max)
  && match c_extra d with
     | Some x => (1 <=? rspan (x_span x)) && (1 <=? cspan_ (x_span x)) && (r + rspan (x_span x) <=? u32_max) && (c + cspan_ (x_span x) <=? u32_max)
     | None => true
     end.
Lemma inside_sound kv : inside kv = true -> cell_inside kv.
Proof.
  destruct kv as [[r c] d]. unfold inside, cell_inside. generalize u32_max. intros M H. apply andb_prop in H as (H & X).
  split; [lia|]. split; [lia|]. split; [lia|]. intros x E. rewrite E in X. repeat split; lia.
Qed.
Lemma fit_inside gr : inside_grid (fit_sheet gr).
Proof.
  unfold inside_grid, fit_sheet. cbn [tb_cells tb_rows tb_cols tb_gcols tb_hcols tb_ranges].
  split; [vm_compute; repeat (constructor || reflexivity)|].
  split. { apply Forall_forall. intros kv I. apply inside_sound. revert kv I. apply forallb_forall. vm_compute. reflexivity. }
  assert (Dr : disjoint fit_rows).
  { split; [vm_compute; repeat constructor|]. split; [intros b h [E|[]]; injection E as <- <-; vm_compute; discriminate|]. intros b h b' h' [E|[]] [E'|[]]; injection E as <- <-; injection E' as <- <-. lia. }
  split; [exact Dr|]. split.
  { intros r n (b & c & I) R. assert (U : r = 1 \/ r = 2 \/ r = 6) by (cbn in I; repeat (destruct I as [I|I]; [injection I; lia|]); contradiction).
    destruct R as [(h & [E|[]] & <-)|(_ & ->)]; [injection E as <- <-; vm_compute; split; discriminate|]. unfold u32_max. lia. }
  split; [exact ex_cols_disjoint|]. split. { intros b h I. cbn in I. repeat (destruct I as [I|I]; [injection I as <- <-; cbn; lia|]). contradiction. }
  split; [constructor; [reflexivity|constructor]|]. split; [intros f t E; injection E as <- <-; reflexivity|discriminate].
Qed.
Lemma fit_apart gr : nothing_overlaps (fit_sheet gr).
Proof.
  split; cbn [tb_cells tb_rows fit_sheet].
  - intros r b c b' c' I I' L. cbn in I, I'.
    repeat (destruct I as [I|I]; [injection I as <- <- <-; repeat (destruct I' as [I'|I']; [injection I'; cbn; intros; subst; lia|]); contradiction|]). contradiction.
  - intros r n r' (b & c & I) R (b' & c' & I') L.
    assert (U : r = 1 \/ r = 2 \/ r = 6) by (cbn in I; repeat (destruct I as [I|I]; [injection I; lia|]); contradiction).
    assert (U' : r' = 1 \/ r' = 2 \/ r' = 6) by (cbn in I'; repeat (destruct I' as [I'|I']; [injection I'; lia|]); contradiction).
    destruct R as [(h & [E|[]] & <-)|(N & ->)]; [injection E as <- <-; cbn; lia|lia].
Qed.
Example C71_ex : row_groups_writable (fit_sheet [mkGrp 3 3 true; mkGrp 2 4 false; mkGrp 9 9 true]) /\ (exists cs, write_sheet no_styles (fit_sheet [mkGrp 3 3 true; mkGrp 2 4 false; mkGrp 9 9 true]) = Ok cs)
  /\ (~ nothing_overlaps (plain_sheet [] [] [] [] None None [((0, 0), Cell (CellModel.VBool true) None None 2 None); ((0, 1), tcell "b")]))
  /\ write_sheet no_styles (plain_sheet [] [] [] [] None None [((0, 0), Cell (CellModel.VBool true) None None 2 None); ((0, 1), tcell "b")]) = Err.
Proof.
  assert (G : row_groups_writable (fit_sheet [mkGrp 3 3 true; mkGrp 2 4 false; mkGrp 9 9 true])).
  { intros g I. cbn [tb_grows fit_sheet In] in I. destruct I as [<-|[<-|[<-|[]]]]; cbn [g_from g_to].
    - split; [lia|]. intros _. left. exists 2, 2. split; [exists 1, (tcell "c"); cbn; auto|]. split; [|lia]. left. exists (mkHdr (ra "r" Visible 2) 1). cbn. auto.
    - split; [lia|discriminate].
    - split; [lia|]. intros _. right. intros r (b & c & J). cbn in J. repeat (destruct J as [J|J]; [injection J; lia|]). contradiction. }
  split; [exact G|]. split; [exact (proj1 (C71_sheet no_styles _ (fit_inside _) G) (fit_apart _))|]. split; [|vm_compute; reflexivity].
  intros (A & _). specialize (A 0 0 _ 1 _ (or_introl eq_refl) (or_intror (or_introl eq_refl)) ltac:(lia)). cbn in A. lia.
Qed.

(** ** What is wrong *)

(** A group of one row that has no cells, between rows that have: the counter of open groups goes below zero. *)
Theorem C71_single_row_refuted : exists g sh, g_from g = g_to g /\ tb_grows sh = [g] /\ inside_grid sh /\ nothing_overlaps sh /\ write_sheet no_styles sh = Panic.
Proof.
  exists (mkGrp 5 5 true), (fit_sheet [mkGrp 5 5 true]). split; [reflexivity|]. split; [reflexivity|]. split; [apply fit_inside|]. split; [apply fit_apart|]. vm_compute. reflexivity.
Qed.
(** The content a caller makes with [CellContent::new] has the repeat count 0; with a validation it cannot be written. *)
Theorem C71_new_content_refuted : exists m, run_ops [((0, 0), AddCell (Content (VText (lit "a")) None None (k_repeat content_new) (Some (lit "v")) span1 span1 None []))] [] = Ok m
  /\ write_sheet no_styles (plain_sheet [] [] [] [] None None m) = Panic.
Proof. eexists. split; [vm_compute; reflexivity|]. vm_compute. reflexivity. Qed.
(** A span that leaves the grid, and the last row and column. *)
Theorem C71_edge_refuted : exists m1 m2 m3, run_ops [((1, 0), SetRowSpan u32_max)] [] = Ok m1 /\ run_ops [((u32_max, 0), SetValue (CellModel.VBool true))] [] = Ok m2
  /\ run_ops [((0, u32_max), SetValue (CellModel.VBool true))] [] = Ok m3
  /\ write_sheet no_styles (plain_sheet [] [] [] [] None None m1) = Panic /\ write_sheet no_styles (plain_sheet [] [] [] [] None None m2) = Panic
  /\ write_sheet no_styles (plain_sheet [] [] [] [] None None m3) = Panic.
Proof. eexists. eexists. eexists. do 5 (split; [vm_compute; reflexivity|]). vm_compute. reflexivity. Qed.

Print Assumptions C71_sheet.
Print Assumptions C71_ods.
Print Assumptions C71_fods.
Print Assumptions C71_saved.
Print Assumptions C71_single_row_refuted.
Print Assumptions C71_new_content_refuted.
Print Assumptions C71_edge_refuted.
