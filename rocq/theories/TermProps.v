(** Whether reading ends (C52). *)
From Verif Require Import Base Lib NumModel XmlModel CellModel CellIoModel TableModel BookModel ConfigModel WorkModel TermModel TermSpec TermProofs.

(** ** Files that do not end inside a table *)

(** A package whose content.xml does not end inside a table is read to the end: from some number of turns on no loop runs any more, and the outcome is that of [read_ods], be it
    a workbook, an error or a panic. The number is that of the events of content.xml and one. The loops over the other files all break at the end of the file. (For a text that
    ends inside the metadata or the settings the model says error where the program keeps what it has read so far.) *)
Theorem C52_closed ign rep c0 f evs n : read_events (fl_content f) = Ok evs -> tables_closed evs -> (length evs < n)%nat ->
  ods_turns n ign rep c0 f = Some (read_ods ign rep c0 f) /\ ods_only_turns n ign rep c0 f = Some (read_ods_only ign rep c0 f).
Proof.
  intros E C L. unfold ods_turns, read_ods, ods_only_turns, read_ods_only. split.
  - destruct (read_file meta_file_step _ _) as [w| |]; cbn [bind]; try reflexivity. destruct (read_file settings_file_step _ _) as [w1| |]; cbn [bind]; try reflexivity.
    destruct (read_file styles_file_step _ _) as [w2| |]; cbn [bind]; try reflexivity. now rewrite (file_ends _ n ign w2 _ evs (content_bodily ign) E C L).
  - now rewrite (file_ends _ n ign _ _ evs (content_bodily ign) E C L).
Qed.
Theorem C52_closed_flat ign rep c0 text evs n : read_events text = Ok evs -> tables_closed evs -> (length evs < n)%nat ->
  fods_turns n ign rep c0 text = Some (read_fods ign rep c0 text) /\ fods_only_turns n ign rep c0 text = Some (read_fods_only ign rep c0 text).
Proof.
  intros E C L. unfold fods_turns, read_fods, fods_only_turns, read_fods_only. split; [now rewrite (file_ends _ n ign _ _ evs (fods_bodily ign) E C L)|now rewrite (file_ends _ n ign _ _ evs (fods_only_bodily ign) E C L)].
Qed.
(** So whatever is never read to the end ends inside a table. *)
Theorem C52_only_tables ign rep c0 text : (forall n, fods_turns n ign rep c0 text = None) -> exists evs, read_events text = Ok evs /\ In (lit "table:table") (left_open [] evs).
Proof.
  intros H. destruct (read_events text) as [evs| |] eqn:E; [|specialize (H O); unfold fods_turns, file_turns in H; rewrite E in H; discriminate..]. exists evs. split; [reflexivity|].
  destruct (in_dec (list_eq_dec N.eq_dec) (lit "table:table") (left_open [] evs)) as [I|I]; [exact I|exfalso]. pose proof (C52_closed_flat ign rep c0 text evs (S (length evs)) E I (le_n _)) as (Q & _). rewrite H in Q. discriminate.
Qed.
Theorem C52_only_tables_ods ign rep c0 f : (forall n, ods_turns n ign rep c0 f = None) -> exists evs, read_events (fl_content f) = Ok evs /\ In (lit "table:table") (left_open [] evs).
Proof.
  intros H. destruct (read_events (fl_content f)) as [evs| |] eqn:E.
  - exists evs. split; [reflexivity|]. destruct (in_dec (list_eq_dec N.eq_dec) (lit "table:table") (left_open [] evs)) as [I|I]; [exact I|exfalso].
    pose proof (C52_closed ign rep c0 f evs (S (length evs)) E I (le_n _)) as (Q & _). rewrite H in Q. discriminate.
  - exfalso. specialize (H O). unfold ods_turns, file_turns in H. rewrite E in H. destruct (let* w := _ in _) in H; discriminate.
  - exfalso. specialize (H O). unfold ods_turns, file_turns in H. rewrite E in H. destruct (let* w := _ in _) in H; discriminate.
Qed.

(** ** All files: a workbook that is read is read after some number of turns, and no other workbook is. *)
Theorem C52_same ign rep c0 f w : (read_ods ign rep c0 f = Ok w <-> exists n, ods_turns n ign rep c0 f = Some (Ok w))
  /\ (read_ods_only ign rep c0 f = Ok w <-> exists n, ods_only_turns n ign rep c0 f = Some (Ok w)).
Proof.
  unfold ods_turns, read_ods, ods_only_turns, read_ods_only.
  assert (F : forall w1, (let* w2 := read_file (content_step ign) w1 (fl_content f) in calc_book rep w2) = Ok w <-> exists n, calc_turns rep (file_turns (content_step ign) n ign w1 (fl_content f)) = Some (Ok w)).
  { intros w1. split.
    - intros H. apply bind_ok in H as (w2 & R & H). pose proof R as R2. unfold read_file in R2. apply bind_ok in R2 as (evs & E & _). exists (S (length evs)). rewrite (file_reads _ (S (length evs)) ign w1 _ evs w2 (content_bodily ign) E R) by lia. cbn [calc_turns bind]. now rewrite H.
    - intros (n & H). unfold calc_turns in H. destruct (file_turns _ _ _ _ _) as [z|] eqn:T; [|discriminate]. injection H as H. apply bind_ok in H as (w2 & -> & H). apply (file_was_read _ n ign) in T; [|apply content_bodily]. rewrite T. exact H. }
  split; [|apply F]. destruct (read_file meta_file_step _ _) as [m| |]; cbn [bind]; [|split; [discriminate|intros (? & ?); discriminate]..].
  destruct (read_file settings_file_step _ _) as [w1| |]; cbn [bind]; [|split; [discriminate|intros (? & ?); discriminate]..].
  destruct (read_file styles_file_step _ _) as [w2| |]; cbn [bind]; [apply F|split; [discriminate|intros (? & ?); discriminate]..].
Qed.
Theorem C52_same_flat ign rep c0 text w : (read_fods ign rep c0 text = Ok w <-> exists n, fods_turns n ign rep c0 text = Some (Ok w))
  /\ (read_fods_only ign rep c0 text = Ok w <-> exists n, fods_only_turns n ign rep c0 text = Some (Ok w)).
Proof.
  unfold fods_turns, read_fods, fods_only_turns, read_fods_only.
  assert (F : forall step, bodily ign step -> (let* w2 := read_file step (work0 c0) text in calc_book rep w2) = Ok w <-> exists n, calc_turns rep (file_turns step n ign (work0 c0) text) = Some (Ok w)).
  { intros step B. split.
    - intros H. apply bind_ok in H as (w2 & R & H). pose proof R as R2. unfold read_file in R2. apply bind_ok in R2 as (evs & E & _). exists (S (length evs)). rewrite (file_reads _ (S (length evs)) ign _ _ evs w2 B E R) by lia. cbn [calc_turns bind]. now rewrite H.
    - intros (n & H). unfold calc_turns in H. destruct (file_turns _ _ _ _ _) as [z|] eqn:T; [|discriminate]. injection H as H. apply bind_ok in H as (w2 & -> & H). apply (file_was_read _ n ign) in T; [|exact B]. rewrite T. exact H. }
  split; apply F; [apply fods_bodily|apply fods_only_bodily].
Qed.

(** ** Files cut off inside a table *)

(** A table that can be read, cut off anywhere before the end of it ([q] is cut off, and reading the whole would have gone on into [q]): no number of turns is enough. *)
Theorem C52_cut ign e p q s r : read_table ign (e :: p ++ q) = Ok (s, r) -> (length r < length q)%nat -> dates_closed p -> forall n, read_table_turns n ign (e :: p) = None.
Proof. intros H L C n. eapply read_table_cut; eauto. Qed.
(** The whole file: if the reader arrives at such a table, it never returns, neither with a workbook nor with an error. *)
Theorem C52_hangs ign rep c0 f evs w1 b r1 w2 a p q s r : read_events (fl_content f) = Ok evs ->
  arrives None (content_step ign) (work0 c0) evs w1 (EStart t_body b :: r1) -> arrives (Some t_body) (body_step ign) w1 r1 w2 (EStart t_table a :: p) ->
  read_table ign (EStart t_table a :: p ++ q) = Ok (s, r) -> (length r < length q)%nat -> dates_closed p ->
  forall n, ods_only_turns n ign rep c0 f = None.
Proof. intros E A1 A2 T L C n. unfold ods_only_turns. now rewrite (file_cut _ _ _ _ _ _ _ _ _ _ _ _ _ _ (content_bodily ign) E A1 A2 T L C n). Qed.
Theorem C52_hangs_flat ign rep c0 text evs w1 b r1 w2 a p q s r : read_events text = Ok evs ->
  arrives None (fods_step ign) (work0 c0) evs w1 (EStart t_body b :: r1) -> arrives (Some t_body) (body_step ign) w1 r1 w2 (EStart t_table a :: p) ->
  read_table ign (EStart t_table a :: p ++ q) = Ok (s, r) -> (length r < length q)%nat -> dates_closed p ->
  forall n, fods_turns n ign rep c0 text = None.
Proof. intros E A1 A2 T L C n. unfold fods_turns. now rewrite (file_cut _ _ _ _ _ _ _ _ _ _ _ _ _ _ (fods_bodily ign) E A1 A2 T L C n). Qed.

(** ** Examples *)

Lemma no_dates_closed evs : Forall (fun e => match e with EStart n _ => n <> lit "dc:date" | _ => True end) evs -> dates_closed evs.
Proof. intros H u a v ->. apply Forall_app in H as (_ & H). inversion H as [|? ? N ?]; subst. now contradiction N. Qed.

Definition ex_head : str := lit "<office:document xmlns:office='o'><office:body><office:spreadsheet>".
Definition ex_table : str := lit "<table:table table:name='A'><table:table-column/><table:table-row><table:table-cell office:value-type='string'><text:p>x".
Definition ex_tail : str := lit "</text:p></table:table-cell></table:table-row></table:table></office:spreadsheet></office:body></office:document>".
Definition ex_item : citem := CBranch KSet cm_new.
(** The whole file: 16 events; a run of 17 turns ends with the workbook. *)
Example C52_closed_ex : exists evs, read_events (ex_head ++ ex_table ++ ex_tail) = Ok evs /\ tables_closed evs /\ length evs = 16%nat
  /\ exists w, fods_turns 17 false true ex_item (ex_head ++ ex_table ++ ex_tail) = Some (Ok w) /\ map tb_name (wb_sheets w) = [lit "A"].
Proof. eexists. split; [vm_compute; reflexivity|]. split; [vm_compute; tauto|]. split; [reflexivity|]. eexists. split; [vm_compute; reflexivity|]. vm_compute. reflexivity. Qed.
(** The same file cut off inside the cell is a sequence of fitting tags, and is never read to the end. *)
Theorem C52_ends_refuted : exists text, (exists evs, read_events text = Ok evs) /\ forall n, fods_turns n false true ex_item text = None.
Proof.
  exists (ex_head ++ ex_table). split; [eexists; vm_compute; reflexivity|].
  refine (C52_hangs_flat false true ex_item _ _ _ _ _ _ _ _ _ _ _ _ _ _ _ _ _).
  - vm_compute. reflexivity.
  - eapply arrives_on; [discriminate|vm_compute; reflexivity|]. apply arrives_here.
  - eapply arrives_on; [discriminate|vm_compute; reflexivity|]. apply arrives_here.
  - instantiate (3 := [EEnd t_p; EEnd t_cell; EEnd t_row; EEnd t_table]). vm_compute. reflexivity.
  - vm_compute. lia.
  - apply no_dates_closed. repeat (constructor; [exact I || discriminate|]). constructor.
Qed.
(** Cut off inside the date of an annotation: what there is of the date cannot be parsed, and the reader ends with an error. *)
Definition ex_date (d : str) : str :=
  lit "<table:table table:name='A'><table:table-row><table:table-cell><office:annotation office:display='true'><dc:date>" ++ d.
Example C52_date_ex : fods_turns 17 false true ex_item (ex_head ++ ex_date (lit "2024-0")) = Some Err
  /\ fods_turns 17 false true ex_item (ex_head ++ ex_date (lit "2024-05-06T07:08:09")) = None.
Proof. vm_compute. split; reflexivity. Qed.
(** Cut off before the table or after it: the reader ends, without the table or with it. *)
Example C52_before_ex : exists w, fods_turns 17 false true ex_item ex_head = Some (Ok w) /\ wb_sheets w = [].
Proof. eexists. split; [vm_compute; reflexivity|reflexivity]. Qed.
Example C52_after_ex : exists w, fods_turns 17 false true ex_item (ex_head ++ lit "<table:table table:name='A'></table:table>") = Some (Ok w) /\ map tb_name (wb_sheets w) = [lit "A"].
Proof. eexists. split; [vm_compute; reflexivity|vm_compute; reflexivity]. Qed.
(** Cut off inside the text of a help message, in the validations: the loops break and the workbook is returned. *)
Example C52_valids_ex : exists w, fods_turns 17 false true ex_item (ex_head ++ lit "<table:content-validations><table:content-validation table:name='v'><table:help-message><text:p>x") = Some (Ok w).
Proof. eexists. vm_compute. reflexivity. Qed.

Print Assumptions C52_closed.
Print Assumptions C52_closed_flat.
Print Assumptions C52_only_tables.
Print Assumptions C52_only_tables_ods.
Print Assumptions C52_same.
Print Assumptions C52_same_flat.
Print Assumptions C52_cut.
Print Assumptions C52_hangs.
Print Assumptions C52_hangs_flat.
Print Assumptions C52_ends_refuted.
