(** Comments, processing instructions and declarations change nothing that is read; CDATA sections are lost. *)
From Verif Require Import Base Lib NumModel XmlModel XmlSpec CellModel CellIoModel DrawModel HeaderModel TableModel CloneModel BookModel ScriptModel ValidModel StyleModel MetaModel ConfigModel WorkModel TermProofs SkipSpec SkipProofs.
From Verif Require PkgModel.

(** Every reader gives the same for the files, whatever the options, also the same error. *)
Theorem C75_ods ign rep c0 f f' : alike (fl_meta f) (fl_meta f') -> alike (fl_settings f) (fl_settings f') -> alike (fl_styles f) (fl_styles f') -> alike (fl_content f) (fl_content f') ->
  WorkModel.read_ods ign rep c0 f = WorkModel.read_ods ign rep c0 f'.
Proof.
  intros A B C D. unfold WorkModel.read_ods. rewrite (file_alike _ (work0 c0) _ _ meta_file_blind meta_file_shrinks A).
  destruct (read_file meta_file_step (work0 c0) (fl_meta f')) as [w| |]; [|reflexivity|reflexivity]. cbn [bind]. rewrite (file_alike _ w _ _ settings_file_blind settings_file_shrinks B).
  destruct (read_file settings_file_step w (fl_settings f')) as [w1| |]; [|reflexivity|reflexivity]. cbn [bind]. rewrite (file_alike _ w1 _ _ styles_file_blind styles_file_shrinks C).
  destruct (read_file styles_file_step w1 (fl_styles f')) as [w2| |]; [|reflexivity|reflexivity]. cbn [bind]. now rewrite (file_alike _ w2 _ _ (content_blind ign) (content_shrinks ign) D).
Qed.
Theorem C75_ods_only ign rep c0 f f' : alike (fl_content f) (fl_content f') -> read_ods_only ign rep c0 f = read_ods_only ign rep c0 f'.
Proof. intros D. unfold read_ods_only. now rewrite (file_alike _ _ _ _ (content_blind ign) (content_shrinks ign) D). Qed.
Theorem C75_fods ign rep c0 t t' : alike t t' ->
  WorkModel.read_fods ign rep c0 t = WorkModel.read_fods ign rep c0 t' /\ read_fods_only ign rep c0 t = read_fods_only ign rep c0 t'.
Proof.
  intros A. unfold WorkModel.read_fods, read_fods_only. split.
  - now rewrite (file_alike _ _ _ _ (fods_blind ign) (fods_shrinks ign) A).
  - now rewrite (file_alike _ _ _ _ (fods_only_blind ign) (fods_only_shrinks ign) A).
Qed.
(** The manifest too. *)
Theorem C75_manifest evs evs' : plain evs = plain evs' -> PkgModel.read_manifest evs = PkgModel.read_manifest evs'.
Proof.
  assert (Q : forall l m, fold_left PkgModel.read_event (plain l) m = fold_left PkgModel.read_event l m).
  { induction l as [|e l IH]; intros m; [reflexivity|]. cbn [plain]. destruct (aside e) eqn:E; [|cbn [fold_left]; apply IH].
    destruct e; try discriminate. cbn [fold_left PkgModel.read_event]. apply IH. }
  intros P. unfold PkgModel.read_manifest. now rewrite <- (Q evs), P, Q.
Qed.
(** A comment or an instruction put between two events of a file makes a file like it. *)
Theorem C75_comment a b c evs : between a b -> quiet c = true -> read_events (a ++ b) = Ok evs -> alike (a ++ comment c ++ b) (a ++ b).
Proof.
  intros B Q R. unfold comment. replace (a ++ (lit "<!--" ++ c ++ lit "-->") ++ b) with (a ++ c_lt :: 33 :: (45 :: 45 :: c ++ [45; 45]) ++ c_gt :: b).
  - apply (put_other a 33 _ b B) with (evs := evs); [|now left|exact R]. change (33 :: 45 :: 45 :: c ++ [45; 45]) with ([33; 45; 45] ++ c ++ [45; 45]). rewrite !quiet_app, Q. reflexivity.
  - f_equal. change (lit "<!--") with [c_lt; 33; 45; 45]. change (lit "-->") with [45; 45; c_gt]. cbn [app]. rewrite <- !app_assoc. reflexivity.
Qed.
Theorem C75_instruction a b c evs : between a b -> quiet c = true -> read_events (a ++ b) = Ok evs -> alike (a ++ instruction c ++ b) (a ++ b).
Proof.
  intros B Q R. unfold instruction. replace (a ++ (lit "<?" ++ c ++ lit "?>") ++ b) with (a ++ c_lt :: 63 :: (c ++ [63]) ++ c_gt :: b).
  - apply (put_other a 63 _ b B) with (evs := evs); [|now right|exact R]. change (63 :: c ++ [63]) with ([63] ++ c ++ [63]). rewrite !quiet_app, Q. reflexivity.
  - f_equal. change (lit "<?") with [c_lt; 63]. change (lit "?>") with [63; c_gt]. cbn [app]. rewrite <- !app_assoc. reflexivity.
Qed.
(** So any number of them: files that are alike are alike in both directions and over several steps. *)
Theorem C75_alike : (forall t evs, read_events t = Ok evs -> alike t t) /\ (forall t t', alike t t' -> alike t' t) /\ (forall t t' t'', alike t t' -> alike t' t'' -> alike t t'').
Proof.
  split; [|split].
  - intros t evs E. now exists evs, evs.
  - intros t t' (a & b & A & B & P). now exists b, a.
  - intros t t' t'' (a & b & A & B & P) (b' & c & B' & C & P'). exists a, c. rewrite B in B'. injection B' as <-. rewrite P. auto.
Qed.
Theorem C75_flat ign rep c0 a b c evs : between a b -> quiet c = true -> read_events (a ++ b) = Ok evs ->
  WorkModel.read_fods ign rep c0 (a ++ comment c ++ b) = WorkModel.read_fods ign rep c0 (a ++ b)
  /\ WorkModel.read_fods ign rep c0 (a ++ instruction c ++ b) = WorkModel.read_fods ign rep c0 (a ++ b).
Proof.
  intros B Q R. split; apply C75_fods; [eapply C75_comment|eapply C75_instruction]; eauto.
Qed.
(** Inside the text of a cell, too, as long as there was no tag in the paragraph before. *)
Definition no_tag (pc : pcontent) : Prop := match pc with PXml _ => False | _ => True end.
Theorem C75_para ign s tag x a pc st t c u r : no_tag pc ->
  table_loop ign s (MCell tag x (KPara a pc st)) (EText t :: EOther c :: EText u :: r) = table_loop ign s (MCell tag x (KPara a pc st)) (EText (t ++ u) :: r).
Proof.
  intros N. cbn [table_loop table_step cell_step para_step bind].
  replace (p_text u (p_text t pc)) with (p_text (t ++ u) pc); [reflexivity|]. destruct pc; cbn [p_text]; [reflexivity|now rewrite app_assoc|contradiction].
Qed.
Theorem C75_field m n f t x c y r : meta_loop (MetaModel.MText m n f t) (EText x :: EOther c :: EText y :: r) = meta_loop (MetaModel.MText m n f t) (EText (x ++ y) :: r).
Proof. cbn [meta_loop mstep bind]. now rewrite app_assoc. Qed.

(** ** Examples *)

Definition head_text : str := lit "<office:document office:version='1.3'><office:body><office:spreadsheet><table:table table:name='S'>".
Definition row_text (p : str) : str := lit "<table:table-row><table:table-cell office:value-type='string'><text:p>" ++ p ++ lit "</text:p></table:table-cell></table:table-row>".
Definition tail_text : str := lit "</table:table></office:spreadsheet></office:body></office:document>".
Definition cells_of (text : str) : res (list (list (CellModel.value))) :=
  let* w := WorkModel.read_fods false true (CBranch KSet cm_new) text in Ok (map (fun s => map (fun e => c_value (snd e)) (tb_cells s)) (wb_sheets w)).
Example C75_flat_ex : cells_of (head_text ++ row_text (lit "ab") ++ tail_text) = Ok [[VText (lit "ab")]]
  /\ cells_of (head_text ++ comment (lit " one < two & <three ") ++ row_text (lit "ab") ++ tail_text) = Ok [[VText (lit "ab")]]
  /\ cells_of (lit "<?xml version='1.0'?>" ++ head_text ++ instruction (lit "x y") ++ row_text (lit "a" ++ comment (lit "-") ++ lit "b") ++ tail_text ++ comment []) = Ok [[VText (lit "ab")]].
Proof. repeat split; vm_compute; reflexivity. Qed.
Example C75_between_ex : between head_text (row_text (lit "ab") ++ tail_text) /\ between (head_text ++ row_text (lit "ab")) (lit " " ++ tail_text) /\ ~ between (lit "<a b='") (lit "c'/>").
Proof.
  split; [|split].
  - eexists. split; [vm_compute; reflexivity|]. right. now left.
  - eexists. split; [vm_compute; reflexivity|]. left. right. eexists (EEnd (lit "table:table-row")), _. split; [|exact I].
    match goal with |- ?l = _ => change l with (removelast l ++ [EEnd (lit "table:table-row")]) end. reflexivity.
  - intros (ea & L & _). discriminate L.
Qed.

(** ** What is not true *)

(** "A CDATA section is text": it is passed over like a comment. *)
Theorem C75_cdata_refuted : exists p c, quiet c = true /\ cells_of (head_text ++ row_text (p ++ c) ++ tail_text) = Ok [[VText (p ++ c)]]
  /\ cells_of (head_text ++ row_text (p ++ cdata c) ++ tail_text) = Ok [[VText p]] /\ c <> [].
Proof. exists (lit "a"), (lit "b"). repeat split; try discriminate; vm_compute; reflexivity. Qed.
(** "A comment inside a text changes nothing": of a user defined value and of a text inside a number format only the last piece is kept; where trees
    are read the text comes in two pieces. *)
Definition users (v : str) : res (list (str * mvalue)) :=
  let* w := WorkModel.read_fods false true (CBranch KSet cm_new)
    (lit "<office:document><office:meta><meta:user-defined meta:name='n'>" ++ v ++ lit "</meta:user-defined></office:meta></office:document>") in Ok (m_user (wb_meta w)).
Theorem C75_user_refuted : exists x y c, quiet c = true /\ users (x ++ y) = Ok [(lit "n", MString (x ++ y))] /\ users (x ++ comment c ++ y) = Ok [(lit "n", MString y)] /\ x <> [].
Proof. exists (lit "a"), (lit "b"), (lit "c"). repeat split; try discriminate; vm_compute; reflexivity. Qed.
Definition number_text (v : str) : res (list (option str)) :=
  let* w := WorkModel.read_fods false true (CBranch KSet cm_new)
    (lit "<office:document><office:automatic-styles><number:number-style style:name='n'><number:number><number:embedded-text number:position='3'>" ++ v
     ++ lit "</number:embedded-text></number:number></number:number-style></office:automatic-styles></office:document>") in
  Ok (map pt_content (flat_map (fun e => match nm_body (snd e) with BFormat _ _ b => fb_parts b | _ => [] end) (bk_styles (sk_book (wb_styles w)) FmtNumber))).
Theorem C75_number_refuted : exists x y c, quiet c = true /\ number_text (x ++ y) = Ok [Some (x ++ y)] /\ number_text (x ++ comment c ++ y) = Ok [Some y] /\ x <> [].
Proof. exists (lit "a"), (lit "b"), (lit "c"). repeat split; try discriminate; vm_compute; reflexivity. Qed.
Theorem C75_tree_refuted : exists x y c, quiet c = true
  /\ cells_of (head_text ++ row_text (lit "<text:s/>" ++ x ++ y) ++ tail_text) <> cells_of (head_text ++ row_text (lit "<text:s/>" ++ x ++ comment c ++ y) ++ tail_text).
Proof. exists (lit "a"), (lit "b"), (lit "c"). split; [reflexivity|]. vm_compute. discriminate. Qed.

Print Assumptions C75_ods.
Print Assumptions C75_ods_only.
Print Assumptions C75_fods.
Print Assumptions C75_manifest.
Print Assumptions C75_comment.
Print Assumptions C75_instruction.
Print Assumptions C75_alike.
Print Assumptions C75_flat.
Print Assumptions C75_para.
Print Assumptions C75_field.
Print Assumptions C75_cdata_refuted.
Print Assumptions C75_user_refuted.
Print Assumptions C75_number_refuted.
Print Assumptions C75_tree_refuted.
