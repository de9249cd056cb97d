(** C53: for which files reading cannot panic. *)
From Verif Require Import Base Lib OMap NumModel XmlModel CellModel CellIoModel HeaderModel TableModel BookModel ScriptModel ValidModel StyleModel MetaModel ConfigModel WorkModel.
From Verif Require Import TermSpec TermProofs PanicSpec PanicProofs PanicParts PanicTable PanicWork.

Lemma read_nested text evs : read_events text = Ok evs -> nested [] evs = true.
Proof. unfold read_events. intros E. apply bind_ok in E as (l & _ & E). destruct (nested [] l) eqn:N; [|discriminate]. now injection E as <-. Qed.
Lemma events_fine text evs : read_events text = Ok evs -> tags_calm evs -> fine evs.
Proof. intros E T. split; [exists []; now apply (read_nested text)|exact T]. Qed.
Lemma events_CI text evs : read_events text = Ok evs -> tags_calm evs -> tables_calm evs -> CI evs.
Proof. intros E T (B & R & C). split; [eapply events_fine; eauto|]. split; [exists [], false, false; split; [now apply (read_nested text)|exact B]|]. now split. Qed.

(** What the parts of a file must satisfy, see PanicSpec; a file that is no sequence of fitting tags is refused anyway. *)
Definition meta_file_calm (text : str) : Prop := forall evs, read_events text = Ok evs -> tags_calm evs /\ meta_calm evs.
Definition styles_file_calm (text : str) : Prop := forall evs, read_events text = Ok evs -> tags_calm evs.
Definition content_file_calm (text : str) : Prop := forall evs, read_events text = Ok evs -> tags_calm evs /\ tables_calm evs.
Definition flat_file_calm (text : str) : Prop := forall evs, read_events text = Ok evs -> tags_calm evs /\ tables_calm evs /\ meta_calm evs.
Definition len (s : str) : N := N.of_nat (length s).

(** ** Reading does not panic *)

Lemma fine_sfx' r evs : fine evs -> sfx r evs -> fine r. Proof. intros F S. eapply fine_sfx; eauto. Qed.
Lemma any_sfx (r evs : list event) : True -> sfx r evs -> True. Proof. trivial. Qed.
(** Text of any kind becomes events or an error. *)
Theorem C53_events text : read_events text <> Panic.
Proof. eapply np_not. apply events_np. Qed.
(** Packages. *)
Theorem C53_ods ign rep c0 f : meta_file_calm (fl_meta f) -> styles_file_calm (fl_styles f) -> content_file_calm (fl_content f) ->
  len (fl_meta f) + len (fl_settings f) + len (fl_styles f) + len (fl_content f) <= u32_max ->
  read_ods ign rep c0 f <> Panic.
Proof.
  intros Hm Hs Hc L. unfold len in L. eapply np_not. unfold read_ods.
  eapply np_bind'; [apply (file_np (N.of_nat (length (fl_settings f)) + N.of_nat (length (fl_styles f)) + N.of_nat (length (fl_content f))) FM FM_sfx)|]; [|apply meta_file_np|apply work0_room; lia|].
  { intros evs E. destruct (Hm evs E) as (A & B). split; [eapply events_fine; eauto|exact B]. }
  intros w1 _ W1. eapply np_bind'; [apply (file_np (N.of_nat (length (fl_styles f)) + N.of_nat (length (fl_content f))) (fun _ => True) any_sfx)|]; [trivial|apply settings_file_np|eapply WS_le; [exact W1|lia]|].
  intros w2 _ W2. eapply np_bind'; [apply (file_np (N.of_nat (length (fl_content f))) fine fine_sfx')|]; [|apply styles_file_np|eapply WS_le; [exact W2|lia]|].
  { intros evs E. eapply events_fine; eauto. }
  intros w3 _ W3. eapply np_bind'; [apply (file_np 0 CI CI_sfx)|]; [|apply content_np|eapply WS_le; [exact W3|lia]|].
  { intros evs E. destruct (Hc evs E). eapply events_CI; eauto. }
  intros w4 _ (_ & _ & D). apply np_of. now apply calc_np.
Qed.
(** Only the content of a package. *)
Theorem C53_ods_only ign rep c0 f : content_file_calm (fl_content f) -> len (fl_content f) <= u32_max -> read_ods_only ign rep c0 f <> Panic.
Proof.
  intros Hc L. unfold len in L. eapply np_not. unfold read_ods_only. eapply np_bind'; [apply (file_np 0 CI CI_sfx)|]; [|apply content_np|apply work0_room; lia|].
  { intros evs E. destruct (Hc evs E). eapply events_CI; eauto. }
  intros w4 _ (_ & _ & D). apply np_of. now apply calc_np.
Qed.
(** Flat files. *)
Theorem C53_fods ign rep c0 text : flat_file_calm text -> len text <= u32_max -> read_fods ign rep c0 text <> Panic.
Proof.
  intros Hc L. unfold len in L. eapply np_not. unfold read_fods. eapply np_bind'; [apply (file_np 0 CM CM_sfx)|]; [|apply fods_np|apply work0_room; lia|].
  { intros evs E. destruct (Hc evs E) as (A & B & C). split; [eapply events_CI; eauto|exact C]. }
  intros w4 _ (_ & _ & D). apply np_of. now apply calc_np.
Qed.
Theorem C53_fods_only ign rep c0 text : content_file_calm text -> len text <= u32_max -> read_fods_only ign rep c0 text <> Panic.
Proof.
  intros Hc L. unfold len in L. eapply np_not. unfold read_fods_only. eapply np_bind'; [apply (file_np 0 CI CI_sfx)|]; [|apply fods_only_np|apply work0_room; lia|].
  { intros evs E. destruct (Hc evs E). eapply events_CI; eauto. }
  intros w4 _ (_ & _ & D). apply np_of. now apply calc_np.
Qed.

(** ** Files that make the reader panic *)

Definition flat (s : str) : str := lit "<office:document>" ++ s ++ lit "</office:document>".
Definition body (s : str) : str := flat (lit "<office:body><office:spreadsheet>" ++ s ++ lit "</office:spreadsheet></office:body>").
Definition table (s : str) : str := body (lit "<table:table>" ++ s ++ lit "</table:table>").
Definition valid (s : str) : str := body (lit "<table:content-validations><table:content-validation table:name='v' " ++ s ++ lit "></table:content-validation></table:content-validations>").
Definition row (n : str) : str := lit "<table:table-row table:number-rows-repeated='" ++ n ++ lit "'><table:table-cell office:value-type='string'/></table:table-row>".
Definition col (n : str) : str := lit "<table:table-column table:number-columns-repeated='" ++ n ++ lit "'/>".
(** One for each condition. *)
Definition bad : list str :=
  [(* a condition shorter than the three bytes that are cut off it; one whose third byte is inside a character *)
   valid (lit "table:condition='of'"); valid (lit "table:condition='of" ++ [8364] ++ lit "'");
   (* a reference with too many letters *)
   valid (lit "table:base-cell-address='A.ABCDEFGH1'");
   (* a duration with a large number of days *)
   table (lit "<table:table-row><table:table-cell office:value-type='time' office:time-value='P106751991167DT8H'/></table:table-row>");
   (* groups and headers without a row or a column *)
   table (lit "<table:table-column-group></table:table-column-group>"); table (lit "<table:table-header-columns></table:table-header-columns>");
   table (lit "<table:table-row-group></table:table-row-group>"); table (lit "<table:table-header-rows></table:table-header-rows>");
   (* the columns of a group behind a row *)
   table (lit "<table:table-column/><table:table-column-group><table:table-row></table:table-row></table:table-column-group>");
   (* no repetition; more than there are *)
   table (lit "<table:table-row-group>" ++ row (lit "0") ++ lit "</table:table-row-group>"); table (row (lit "4294967295") ++ row (lit "2")); table (lit "<table:table-column-group>" ++ col (lit "0") ++ lit "</table:table-column-group>"); table (col (lit "4294967295") ++ col (lit "2"));
   table (lit "<table:table-row><table:table-cell table:number-columns-repeated='4294967295'/><table:table-cell table:number-columns-repeated='2'/></table:table-row>");
   (* scripts and metadata *)
   flat (lit "<office:scripts><office:script/></office:scripts>");
   flat (lit "<office:meta><meta:editing-duration>P106751991167DT8H</meta:editing-duration></office:meta>");
   flat (lit "<office:meta><meta:user-defined meta:name='a' meta:value-type='time'>P106751991167DT8H</meta:user-defined></office:meta>");
   flat (lit "<office:meta><meta:auto-reload meta:delay='P106751991167DT8H'></meta:auto-reload></office:meta>")].
(** All of them are sequences of fitting tags, and reading panics. *)
Definition panics (t : str) : bool :=
  match read_events t, read_fods false true (CBranch KSet cm_new) t with Ok _, Panic => true | _, _ => false end.
Example C53_causes : map panics bad = repeat true 18.
Proof. vm_compute. reflexivity. Qed.
(** "Reading never panics" is wrong. *)
Theorem C53_never_refuted : exists text evs, read_events text = Ok evs /\ read_fods_only false true (CBranch KSet cm_new) text = Panic.
Proof. exists (table (lit "<table:table-row-group></table:table-row-group>")). eexists. split; vm_compute; reflexivity. Qed.

(** ** A file that meets the conditions *)

Definition good : str := flat (lit "<office:meta><meta:editing-duration>PT90061.5S</meta:editing-duration></office:meta><office:body><office:spreadsheet>"
  ++ lit "<table:content-validations><table:content-validation table:name='v' table:condition='of:x' table:base-cell-address='S.XFD1048576'></table:content-validation></table:content-validations>"
  ++ lit "<table:table table:name='S' table:print-ranges='S.A1:S.B2'><table:table-column-group>" ++ col (lit "1024") ++ lit "</table:table-column-group><table:table-header-rows>" ++ row (lit "1000000")
  ++ lit "</table:table-header-rows><table:table-row><table:table-cell office:value-type='time' office:time-value='PT99999999999H'/></table:table-row></table:table>"
  ++ lit "</office:spreadsheet></office:body>").
Ltac no_attr := let H := fresh in intros H; exfalso; repeat (destruct H as [H|H]); vm_compute in H; discriminate H.
Ltac calm_attr := split; [first [no_attr | intros _; exists [111; 102; 58], [120]; split; reflexivity] | split; (first [no_attr | intros _; vm_compute; exact I])].
Ltac calm_attrs := repeat (apply Forall_cons; [calm_attr|]); apply Forall_nil.
Ltac calm_zero := let v := fresh in let H := fresh in intros _ v H; repeat (destruct H as [H|H]; [apply pair_equal_spec in H as (_ & <-); vm_compute; discriminate|]); destruct H.
Ltac calm_event := match goal with
  | |- event_calm (EStart _ _) => split; [calm_attrs|first [no_attr|calm_zero]]
  | |- event_calm (EEmpty _ _) => split; [calm_attrs|split; [first [no_attr|calm_zero]|vm_compute; discriminate]]
  | |- _ => exact I end.
Lemma no_values evs : Forall (fun e => match e with EStart n _ => str_eqb n (lit "meta:user-defined") = false | _ => True end) evs -> values_calm evs.
Proof. intros H p a q x r -> _ _. exfalso. apply Forall_app in H as (_ & H). apply Forall_inv in H. now rewrite str_eqb_refl in H. Qed.
Lemma durations_at evs : (fix go l := match l with [] => True | e :: l' => go l' /\ match e with EStart n _ => str_eqb n (lit "meta:editing-duration") = true ->
    forall q r, l' = q ++ r -> ~ In (EEnd (lit "meta:editing-duration")) q -> small_numbers (text_in q) | _ => True end end) evs -> durations_calm evs.
Proof.
  intros H p. revert evs H. induction p as [|e p IH]; intros evs H a q r -> N.
  - destruct H as (_ & H). eapply H; [apply str_eqb_refl|reflexivity|exact N].
  - destruct H as (H & _). eapply IH; [exact H|reflexivity|exact N].
Qed.
Example C53_ex : flat_file_calm good /\ len good <= u32_max
  /\ exists w, read_fods false true (CBranch KSet cm_new) good = Ok w.
Proof.
  split; [|split; [vm_compute; discriminate|eexists; vm_compute; reflexivity]].
  intros evs E. vm_compute in E. apply (f_equal (fun x => match x with Ok l => l | _ => [] end)) in E. cbv beta iota in E. subst evs.
  split; [|split].
  - unfold tags_calm. repeat (apply Forall_cons; [calm_event|]). apply Forall_nil.
  - split; [vm_compute; intuition discriminate|]. split; vm_compute; discriminate.
  - split.
    + apply durations_at. repeat split; try (intros H; vm_compute in H; discriminate H). intros _ q r E N.
      destruct q as [|e1 q]; [exact I|]. apply (f_equal (fun l => match l with x :: y => (x, y) | [] => (EText [], []) end)) in E.
      all: apply pair_equal_spec in E as (<- & E). destruct q as [|e2 q]; [vm_compute; exact I|]. 
      apply (f_equal (fun l => match l with x :: y => (x, y) | [] => (EText [], []) end)) in E. apply pair_equal_spec in E as (<- & E). exfalso. apply N. right. left. vm_compute. reflexivity.
    + apply no_values. repeat (apply Forall_cons; [try exact I; vm_compute; reflexivity|]). apply Forall_nil.
Qed.
(** The same text as each of the files of a package. *)
Example C53_ods_ex : let f := Files good good good good in
  meta_file_calm (fl_meta f) /\ styles_file_calm (fl_styles f) /\ content_file_calm (fl_content f)
  /\ len (fl_meta f) + len (fl_settings f) + len (fl_styles f) + len (fl_content f) <= u32_max
  /\ exists w, read_ods false true (CBranch KSet cm_new) f = Ok w /\ map tb_name (wb_sheets w) = [lit "S"].
Proof.
  destruct C53_ex as (H & _). cbv zeta. cbn [fl_meta fl_settings fl_styles fl_content].
  split; [intros evs E; now destruct (H evs E) as (A & B & C)|]. split; [intros evs E; now destruct (H evs E) as (A & B & C)|]. split; [intros evs E; now destruct (H evs E) as (A & B & C)|].
  split; [vm_compute; discriminate|]. eexists. split; [vm_compute; reflexivity|vm_compute; reflexivity].
Qed.

Print Assumptions C53_events.
Print Assumptions C53_ods.
Print Assumptions C53_ods_only.
Print Assumptions C53_fods.
Print Assumptions C53_fods_only.
Print Assumptions C53_never_refuted.
