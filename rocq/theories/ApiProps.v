(** C72: what one program puts into new sheets is what another one finds in the file. *)
From Coq Require Import Permutation.
From Verif Require Import Base Lib OMap OMapProofs XmlModel RefsModel CellModel CellSpec CellProofs CellProps HeaderModel CellIoModel CellIoSpec TableModel TableSpec TableWhole TableProps BookModel.
From Verif Require Import MetaModel ConfigModel ConfigSpec StyleModel StyleSpec CloneModel CloneProps WorkModel WorkSpec WorkProps FitSpec FitProofs FitWork FitProps ApiSpec ApiProofs.

(** A new sheet filled by calls that store what can be written: no call panics, the sheet is written, and for each position the getters of the
    sheet that is read report what the last calls for this position say. *)
Theorem C72_sheet : forall name ops ds, Forall op_fine ops -> exists m, run_ops ops [] = Ok m
  /\ forall lb ign, exists t, table_through lb ign ds (sheet_of name m) = Ok t /\ reads_program lb ign ds (name, ops) t.
Proof.
  intros name ops ds F. destruct (proj2 (C13_total ops []) (fine_nonzero ops F)) as (m & R). exists m. split; [exact R|]. intros lb ign.
  destruct (fine_cells ops m F R) as (S & G). destruct (proj1 (C71_sheet ds _ (of_inside name m S G) (of_groups name m)) (of_apart name m G)) as (cs & W).
  destruct (sheet_read lb ign ds name m cs S G W) as (t & T & N & B). exists t. split; [exact T|]. split; [exact N|]. intros p. cbn [fst snd].
  rewrite <- (C13_new_sheet ops m p R).
  destruct (through_apart lb ign ds (sheet_of name m) cs W (of_ok name m S G) (of_header name m) (of_cols name m)) as (t1 & T1 & _ & St & _); [destruct (of_few name m false) as [X|X]; [discriminate|exact X]|].
  rewrite T in T1. injection T1 as <-. now apply back_view.
Qed.

(** Exactly what was set, but for the style of the workbook where none was set: values that are not texts of more than one line, rich texts or
    empty texts, and annotations and frames with texts in the pieces they are read in. *)
Theorem C72_same : forall lb ign ds v v', reads_back lb ign ds v v' -> view_plain v -> v_present v = true -> v_repeat v = 1 ->
  (v_style v <> None \/ ds (CellIoModel.value_type (v_value v)) = None) -> ~ says_none ign v -> v' = v.
Proof.
  intros lb ign ds v v' B P Pr R St N. unfold reads_back in B. rewrite Pr in B. destruct B as (u & F & B). apply (found_same lb ds v u P Pr R) in F.
  assert (E : u = v). { rewrite F. destruct v as [a b c d e f g h i j k l]. cbn in *. subst. destruct d; [reflexivity|]. destruct St as [St|St]; [contradiction|]. now rewrite St. }
  destruct B as [(Z & _)|(_ & ->)]; [|exact E]. rewrite E in Z. contradiction.
Qed.

(** ** Workbooks *)

Lemma filled_sheets ops_list sheets : Forall (fun prog => Forall op_fine (snd prog)) ops_list -> Forall2 filled ops_list sheets ->
  Forall (fun sh => inside_grid sh /\ row_groups_writable sh /\ nothing_overlaps sh) sheets /\ Forall sheet_fine sheets /\ forall rep, Forall (few_repeats rep) sheets.
Proof.
  intros F H. induction H as [|[name ops] sh l l' (m & R & ->) _ IH]; [split; [constructor|split; [constructor|intros; constructor]]|].
  inversion F as [|? ? F1 F2]; subst. destruct (IH F2) as (I1 & I2 & I3). cbn [fst snd] in *. destruct (fine_cells ops m F1 R) as (S & G). split; [|split].
  - constructor; [|exact I1]. split; [now apply of_inside|]. split; [apply of_groups|now apply of_apart].
  - constructor; [|exact I2]. split; [exact (of_ok name m S G)|]. split; [apply of_header|]. split; [apply of_cols|constructor].
  - intros rep. constructor; [|apply I3]. exact (of_few name m rep).
Qed.
Lemma back_sheets lb ign rep ds progs sheets sheets' : Forall (fun prog => Forall op_fine (snd prog)) progs -> Forall2 filled progs sheets ->
  Forall2 (sheet_back lb ign rep ds) sheets sheets' -> Forall2 (reads_program lb ign ds) progs sheets'.
Proof.
  intros F H. revert sheets'. induction H as [|[name ops] sh l l' (m & R & ->) _ IH]; intros s' B; inversion B as [|? t' ? s1 (B1 & _) B2]; subst; [constructor|].
  inversion F as [|? ? F1 F2]; subst. constructor; [|now apply IH]. cbn [fst snd] in *. destruct (fine_cells ops m F1 R) as (S & G).
  destruct (C72_sheet name ops ds F1) as (m2 & R2 & X). rewrite R in R2. injection R2 as <-. destruct (X lb ign) as (t & T & N & V). cbn [fst snd] in *.
  change (bare (sheet_of name m)) with (sheet_of name m) in B1. rewrite T in B1. cbn [bind] in B1.
  pose proof T as T0. unfold table_through in T0. apply bind_ok in T0 as (cs & W & _).
  destruct (calc_read lb ign rep ds name m cs t S G W T _ B1) as (E1 & E2). cbn [bare WorkSpec.with_extra tb_name tb_cells] in E1, E2. unfold reads_program. cbn [fst snd]. rewrite E1, E2. split; assumption.
Qed.

(** The sheets of a workbook filled by programs: the package is written and read, and the sheets read are as said. *)
Theorem C72_saved : forall w progs, work_ok false (put_sheets [] w) -> Forall2 filled progs (wb_sheets w) -> progs <> [] ->
  Forall (fun prog => Forall op_fine (snd prog)) progs ->
  (forall file, In file [lit "meta.xml"; lit "settings.xml"; lit "styles.xml"; lit "content.xml"] -> ns_ok (ns_of file w)) ->
  forall lm lse lst lc, Permutation lm (put_all ns_meta (ns_of (lit "meta.xml") w)) -> Permutation lse (put_all ns_settings (ns_of (lit "settings.xml") w)) ->
  Permutation lst (put_all ns_styles (ns_of (lit "styles.xml") w)) -> Permutation lc (put_all ns_content (ns_of (lit "content.xml") w)) ->
  exists f, write_ods w lm lse lst lc = Ok f
    /\ forall ign rep c0, exists w', read_ods ign rep c0 f = Ok w' /\ Forall2 (reads_program false ign (wb_defaults w)) progs (wb_sheets w').
Proof.
  intros w progs Hw Hf Ne Fo Hns lm lse lst lc P1 P2 P3 P4. destruct (filled_sheets _ _ Fo Hf) as (A & B & C).
  assert (Ok' : work_ok false w). { destruct w. destruct Hw as (H1 & H2 & H3 & H4 & H5 & H6 & H7 & _ & H9). exact (conj H1 (conj H2 (conj H3 (conj H4 (conj H5 (conj H6 (conj H7 (conj B H9)))))))). }
  assert (Ne' : wb_sheets w <> []). { intros E. rewrite E in Hf. inversion Hf. congruence. }
  destruct (C71_saved w Ok' A Ne' Hns false false (wb_config w) (C false) lm lse lst lc P1 P2 P3 P4) as (f & _ & Wr & _). exists f. split; [exact Wr|].
  intros ign rep c0. destruct (C71_saved w Ok' A Ne' Hns ign rep c0 (C rep) lm lse lst lc P1 P2 P3 P4) as (f' & w' & Wr' & Rd & Sb & _).
  rewrite Wr in Wr'. injection Wr' as <-. exists w'. split; [exact Rd|]. now apply (back_sheets false ign rep (wb_defaults w) progs (wb_sheets w)).
Qed.
(** The same for a flat file. *)
Theorem C72_flat : forall w progs, work_ok true (put_sheets [] w) -> Forall2 filled progs (wb_sheets w) -> progs <> [] ->
  Forall (fun prog => Forall op_fine (snd prog)) progs -> ns_ok (ns_of (lit "meta.xml") w) ->
  forall l, Permutation l (put_all ns_fods (ns_of (lit "meta.xml") w)) ->
  exists text, write_fods w l = Ok text
    /\ forall ign rep c0, exists w', read_fods ign rep c0 text = Ok w' /\ Forall2 (reads_program true ign (wb_defaults w)) progs (wb_sheets w').
Proof.
  intros w progs Hw Hf Ne Fo Hns l P. destruct (filled_sheets _ _ Fo Hf) as (A & B & C).
  assert (Ok' : work_ok true w). { destruct w. destruct Hw as (H1 & H2 & H3 & H4 & H5 & H6 & H7 & _ & H9). exact (conj H1 (conj H2 (conj H3 (conj H4 (conj H5 (conj H6 (conj H7 (conj B H9)))))))). }
  assert (Ne' : wb_sheets w <> []). { intros E. rewrite E in Hf. inversion Hf. congruence. }
  assert (F1 : Forall (fun sh => inside_grid sh /\ row_groups_writable sh) (wb_sheets w)) by (eapply Forall_impl; [|exact A]; intros ? (? & ? & _); auto).
  assert (F2 : Forall nothing_overlaps (wb_sheets w)) by (eapply Forall_impl; [|exact A]; intros ? (_ & _ & ?); auto).
  destruct (proj1 (C71_fods w l Ok' F1) (conj Ne' F2)) as (text & Wr). exists text. split; [exact Wr|].
  intros ign rep c0. destruct (C51_fods w l text Ok' Hns P Wr ign rep c0 (C rep)) as (w' & Rd & Sb & _).
  exists w'. split; [exact Rd|]. now apply (back_sheets true ign rep (wb_defaults w) progs (wb_sheets w)).
Qed.

(** ** Examples *)

Definition ex_prog : list (pos * cell_op) :=
  [((2, 3), SetValue (VText (lit "a"))); ((0, 1), SetFormula (lit "of:=1+1")); ((2, 3), SetColSpan 2); ((4, 0), SetStyled (VText (lit "old")) (lit "ce1"));
   ((2, 3), SetStyle (lit "ce2")); ((4, 0), SetValue (CellModel.VBool true)); ((0, 1), RemoveCell); ((5, 5), SetValidation (lit "v1")); ((2, 3), SetValue (VText (lit "b < c")));
   ((4, 0), ClearStyle); ((2, 4), SetStyle (lit "ce3")); ((7, 7), SetValue VEmpty)].
Lemma ex_prog_fine : Forall op_fine ex_prog.
Proof.
  assert (W : forall s, writable (VText s)) by (intros s; split; [exact I|discriminate]). assert (B : forall n, n <= 10 -> n < u32_max) by (intros n L; unfold u32_max; lia).
  unfold ex_prog. repeat (apply Forall_cons; [unfold op_fine; split; [apply B; lia|split; [apply B; lia|]]; try exact I; try apply W|]); [| | |apply Forall_nil].
  - split; [lia|]. unfold u32_max. lia.
  - split; [exact I|discriminate].
  - split; [exact I|discriminate].
Qed.
Definition ex_defaults (t : vtype) : option str := match t with TyBool => Some (lit "bool1") | _ => None end.
Definition ex_read (ign : bool) : res (list view) :=
  let* m := run_ops ex_prog [] in let* t := table_through false ign ex_defaults (sheet_of (lit "S") m) in Ok (map (fun p => view_of p (tb_cells t)) [(2, 3); (0, 1); (4, 0); (5, 5); (2, 4); (7, 7)]).
Example C72_ex : Forall op_fine ex_prog /\ ex_read false = Ok
    [View true (VText (lit "b < c")) None (Some (lit "ce2")) 1 None 1 2 1 1 None []; view_blank;
     View true (CellModel.VBool true) None (Some (lit "bool1")) 1 None 1 1 1 1 None []; View true VEmpty None None 1 (Some (lit "v1")) 1 1 1 1 None [];
     View true VEmpty None (Some (lit "ce3")) 1 None 1 1 1 1 None []; view_blank]
  /\ ex_read true = Ok
    [View true (VText (lit "b < c")) None (Some (lit "ce2")) 1 None 1 2 1 1 None []; view_blank;
     View true (CellModel.VBool true) None (Some (lit "bool1")) 1 None 1 1 1 1 None []; View true VEmpty None None 1 (Some (lit "v1")) 1 1 1 1 None [];
     view_blank; view_blank].
Proof. split; [exact ex_prog_fine|]. split; vm_compute; reflexivity. Qed.

(** In a workbook, read with repeat counts kept and not. *)
Lemma no_sheets lb w : work_ok lb w -> work_ok lb (put_sheets [] w).
Proof. destruct w. intros (H1 & H2 & H3 & H4 & H5 & H6 & H7 & _ & H9). exact (conj H1 (conj H2 (conj H3 (conj H4 (conj H5 (conj H6 (conj H7 (conj (Forall_nil _) H9)))))))). Qed.
Example C72_saved_ex : work_ok false (put_sheets [] ex_full) /\ Forall (fun rep =>
    (let* m := run_ops ex_prog [] in let* w := again false rep (put_sheets [sheet_of (lit "one") m; sheet_of (lit "two") []] ex_full) in
     Ok (map (fun sh => (tb_name sh, view_of (2, 3) (tb_cells sh))) (wb_sheets w)))
    = Ok [(lit "one", View true (VText (lit "b < c")) None (Some (lit "ce2")) 1 None 1 2 1 1 None []); (lit "two", view_blank)]) [true; false].
Proof. split; [exact (no_sheets false ex_full ex_work_ok)|]. constructor; [vm_compute; reflexivity|]. constructor; [vm_compute; reflexivity|constructor]. Qed.

(** ** What does not come back *)

Definition set_and_read (ds : vtype -> option str) (o : list cell_op) : res view :=
  let* m := run_ops (map (fun x => ((0, 0), x)) o) [] in let* t := table_through false false ds (sheet_of (lit "S") m) in Ok (view_of (0, 0) (tb_cells t)).
(** An empty text, a cell of its own in the program, is no cell in the file. *)
Theorem C72_empty_refuted : exists o, Forall (fun x => op_fine ((0, 0), x)) o /\ v_present (view_expected view_blank o) = true /\ set_and_read no_styles o = Ok view_blank.
Proof.
  exists [SetValue (VText [])]. split; [|split; vm_compute; reflexivity]. constructor; [|constructor]. unfold op_fine, u32_max. split; [lia|]. split; [lia|]. split; [exact I|discriminate].
Qed.
(** A text of two lines is rich text in the file. *)
Theorem C72_lines_refuted : exists o v, Forall (fun x => op_fine ((0, 0), x)) o /\ set_and_read no_styles o = Ok v
  /\ v_value v = VTextXml [XTag (lit "text:p") [] [XText (lit "a")]; XTag (lit "text:p") [] [XText (lit "b")]] /\ v_value (view_expected view_blank o) = VText (lit "a" ++ [10] ++ lit "b").
Proof.
  exists [SetValue (VText (lit "a" ++ [10] ++ lit "b"))]. eexists. split; [|split; [vm_compute; reflexivity|split; vm_compute; reflexivity]].
  constructor; [|constructor]. unfold op_fine, u32_max. split; [lia|]. split; [lia|]. split; [exact I|discriminate].
Qed.
(** A style that was not set: the style of the workbook for values of the type, even if the style had been cleared. *)
Theorem C72_style_refuted : exists o v, Forall (fun x => op_fine ((0, 0), x)) o /\ v_style (view_expected view_blank o) = None
  /\ set_and_read ex_defaults o = Ok v /\ v_style v = Some (lit "bool1").
Proof.
  exists [SetStyled (CellModel.VBool true) (lit "ce1"); ClearStyle]. eexists. split; [|split; [reflexivity|split; [vm_compute; reflexivity|reflexivity]]].
  constructor; [|constructor; [|constructor]]; unfold op_fine, u32_max; (split; [lia|]); (split; [lia|]); [|exact I]. split; [exact I|discriminate].
Qed.
(** Repeat counts: the repeats of a cell reach the next one, and the sheet is not written. *)
Theorem C72_repeat_refuted : exists ops m, run_ops ops [] = Ok m /\ Forall (fun po => match snd po with SetRepeat n => n = 2 | _ => op_fine po end) ops
  /\ write_sheet no_styles (sheet_of (lit "S") m) = Err.
Proof.
  exists [((0, 0), SetValue (CellModel.VBool true)); ((0, 0), SetRepeat 2); ((0, 1), SetValue (CellModel.VBool false))]. eexists. split; [vm_compute; reflexivity|]. split; [|vm_compute; reflexivity].
  assert (B : forall c b, c <= 1 -> op_fine ((0, c), SetValue (CellModel.VBool b))).
  { intros c b L. unfold op_fine, u32_max. split; [lia|]. split; [lia|]. split; [exact I|discriminate]. }
  constructor; [apply B; lia|]. constructor; [reflexivity|]. constructor; [apply B; lia|constructor].
Qed.

Print Assumptions C72_sheet.
Print Assumptions C72_same.
Print Assumptions C72_saved.
Print Assumptions C72_flat.
Print Assumptions C72_empty_refuted.
Print Assumptions C72_lines_refuted.
Print Assumptions C72_style_refuted.
Print Assumptions C72_repeat_refuted.
