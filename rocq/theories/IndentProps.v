(** Line breaks and indentation between elements change nothing that is read. *)
From Verif Require Import Base Lib NumModel XmlModel XmlSpec CellModel CellIoModel DrawModel HeaderModel TableModel CloneModel BookModel ScriptModel ValidModel StyleModel MetaModel ConfigModel WorkModel TermSpec TermProofs SkipSpec SkipProofs IndentSpec IndentProofs.

Theorem C76_ods ign rep c0 f f' : indented (fl_meta f) (fl_meta f') -> indented (fl_settings f) (fl_settings f') -> indented (fl_styles f) (fl_styles f') -> indented (fl_content f) (fl_content f') ->
  WorkModel.read_ods ign rep c0 f = WorkModel.read_ods ign rep c0 f'.
Proof.
  intros A B C D. unfold WorkModel.read_ods. rewrite (file_indented _ (work0 c0) _ _ meta_file_deaf meta_file_shrinks A).
  destruct (read_file meta_file_step (work0 c0) (fl_meta f')) as [w| |]; [|reflexivity|reflexivity]. cbn [bind]. rewrite (file_indented _ w _ _ settings_file_deaf settings_file_shrinks B).
  destruct (read_file settings_file_step w (fl_settings f')) as [w1| |]; [|reflexivity|reflexivity]. cbn [bind]. rewrite (file_indented _ w1 _ _ styles_file_deaf styles_file_shrinks C).
  destruct (read_file styles_file_step w1 (fl_styles f')) as [w2| |]; [|reflexivity|reflexivity]. cbn [bind]. now rewrite (file_indented _ w2 _ _ (content_deaf ign) (content_shrinks ign) D).
Qed.
Theorem C76_ods_only ign rep c0 f f' : indented (fl_content f) (fl_content f') -> read_ods_only ign rep c0 f = read_ods_only ign rep c0 f'.
Proof. intros D. unfold read_ods_only. now rewrite (file_indented _ _ _ _ (content_deaf ign) (content_shrinks ign) D). Qed.
Theorem C76_fods ign rep c0 t t' : indented t t' ->
  WorkModel.read_fods ign rep c0 t = WorkModel.read_fods ign rep c0 t' /\ read_fods_only ign rep c0 t = read_fods_only ign rep c0 t'.
Proof.
  intros A. unfold WorkModel.read_fods, read_fods_only. split.
  - now rewrite (file_indented _ _ _ _ (fods_deaf ign) (fods_shrinks ign) A).
  - now rewrite (file_indented _ _ _ _ (fods_only_deaf ign) (fods_only_shrinks ign) A).
Qed.

(** ** Indentation put into a file *)

Definition no_empty_script (e : event) : bool := match e with EEmpty n _ => negb (str_eqb n script_name) | _ => true end.
Lemma nested_thin evs : forall st, nested st evs = true -> forallb no_empty_script evs = true -> thin st evs evs.
Proof.
  induction evs as [|e evs IH]; intros st N S; [constructor|]. cbn [forallb] in S. apply andb_true_iff in S as (S0 & S). destruct e; cbn [nested] in N; try (constructor; now apply IH).
  - constructor; [|now apply IH]. intros ->. cbn [no_empty_script] in S0. now rewrite str_eqb_refl in S0.
  - destruct st as [|m st]; [discriminate|]. apply andb_true_iff in N as (E & N). apply str_eqb_eq in E. subst m. constructor. now apply IH.
Qed.
Lemma insert_thin ea t eb : forall st, nested st (ea ++ eb) = true -> forallb no_empty_script (ea ++ eb) = true -> forallb structural (left_open st ea) = true -> thin st (ea ++ EText t :: eb) (ea ++ eb).
Proof.
  induction ea as [|e ea IH]; intros st N S O.
  - cbn [app left_open] in *. constructor; [exact O|]. now apply nested_thin.
  - cbn [app forallb] in *. apply andb_true_iff in S as (S0 & S). destruct e; cbn [nested left_open] in *; try (constructor; now apply IH).
    + constructor; [|now apply IH]. intros ->. cbn [no_empty_script] in S0. now rewrite str_eqb_refl in S0.
    + destruct st as [|m st]; [discriminate|]. apply andb_true_iff in N as (E & N). apply str_eqb_eq in E. subst m. constructor. now apply IH.
Qed.
Lemma insert_nested ea t eb : forall st, nested st (ea ++ EText t :: eb) = nested st (ea ++ eb).
Proof. induction ea as [|e ea IH]; intros st; [reflexivity|]. cbn [app nested]. destruct e; auto. destruct st; [reflexivity|]. now rewrite IH. Qed.
(** Text without special characters. *)
Definition inert (t : str) : bool := forallb (fun x => negb ((x =? c_lt) || (x =? c_amp))) t.
Lemma lex_inert t : inert t = true -> forall acc, lex (XmlModel.MText acc) t = Ok (emit_text (rev acc ++ t)).
Proof.
  induction t as [|x t IH]; intros H acc; [cbn [lex]; now rewrite app_nil_r|]. unfold inert in H. cbn [forallb] in H. apply andb_true_iff in H as (A & H). apply negb_true_iff in A. apply orb_false_iff in A as (A1 & A2).
  cbn [lex]. rewrite A1, A2, (IH H). cbn [rev]. now rewrite <- app_assoc.
Qed.
(** [a] ends with a tag, the next tag begins with [b]; all elements that are open there are structural. *)
Theorem C76_insert a b t ea evs : lex (XmlModel.MText []) a = Ok ea -> no_text_last ea -> forallb structural (left_open [] ea) = true -> inert t = true ->
  match b with [] => True | c :: _ => c = c_lt end -> read_events (a ++ b) = Ok evs -> forallb no_empty_script evs = true -> indented (a ++ t ++ b) (a ++ b).
Proof.
  intros A L O I0 B R S. pose proof R as R0. unfold read_events in R. apply bind_ok in R as (l & E & R). destruct (nested [] l) eqn:N; [|discriminate]. injection R as ->.
  destruct t as [|x t]; [exists evs, evs; repeat split; auto; now apply nested_thin|].
  rewrite (lex_cut_tag a _ ea b A L) in E. apply bind_ok in E as (eb & EB & E). injection E as <-. exists (ea ++ EText (x :: t) :: eb), (ea ++ eb). split; [|split; [exact R0|now apply insert_thin]].
  unfold read_events. rewrite (lex_cut_tag a _ ea _ A L).
  assert (X : lex (XmlModel.MText []) ((x :: t) ++ b) = Ok (EText (x :: t) :: eb)).
  { rewrite (lex_cut (x :: t) _ [EText (x :: t)] b); [rewrite EB; reflexivity|apply (lex_inert (x :: t) I0)|]. destruct b; [exact I|now left]. }
  rewrite X. cbn [bind]. rewrite insert_nested, N. reflexivity.
Qed.
Lemma thin_trans st a b : thin st a b -> forall c, thin st b c -> thin st a c.
Proof.
  induction 1; intros c H'; try (inversion H'; subst; constructor; auto; fail).
Qed.
(** So line by line. *)
Theorem C76_steps t t' t'' : indented t t' -> indented t' t'' -> indented t t''.
Proof. intros (a & b & A & B & T) (b' & c & B' & C & T'). rewrite B in B'. injection B' as <-. exists a, c. repeat split; auto. eapply thin_trans; eauto. Qed.
Theorem C76_flat ign rep c0 a b t ea evs : lex (XmlModel.MText []) a = Ok ea -> no_text_last ea -> forallb structural (left_open [] ea) = true -> inert t = true ->
  match b with [] => True | c :: _ => c = c_lt end -> read_events (a ++ b) = Ok evs -> forallb no_empty_script evs = true ->
  WorkModel.read_fods ign rep c0 (a ++ t ++ b) = WorkModel.read_fods ign rep c0 (a ++ b).
Proof. intros. apply C76_fods. eapply C76_insert; eauto. Qed.

(** ** Examples *)

Definition nl2 : str := [10; 32; 32].
Definition flat_lines : list str := [lit "<?xml version='1.0'?>"; lit "<office:document office:version='1.3'>"; lit "<office:meta>"; lit "<dc:title> T </dc:title>"; lit "</office:meta>";
  lit "<office:settings>"; lit "<config:config-item-set config:name='ooo:view-settings'>"; lit "<config:config-item config:name='A' config:type='string'> x </config:config-item>"; lit "</config:config-item-set>"; lit "</office:settings>";
  lit "<office:scripts>"; lit "<office:script script:language='B'> run </office:script>"; lit "</office:scripts>";
  lit "<office:automatic-styles>"; lit "<number:number-style style:name='N1'>"; lit "<number:text> a </number:text>"; lit "</number:number-style>"; lit "<style:style style:name='ce1' style:family='table-cell'>"; lit "<style:text-properties fo:color='#000000'/>"; lit "</style:style>"; lit "</office:automatic-styles>";
  lit "<office:body>"; lit "<office:spreadsheet>"; lit "<table:table table:name='S'>"; lit "<table:table-column/>"; lit "<table:table-row>";
  lit "<table:table-cell office:value-type='string'>"; lit "<office:annotation>"; lit "<dc:creator>me </dc:creator>"; lit "<text:p> n </text:p>"; lit "</office:annotation>"; lit "<text:p>a b </text:p>"; lit "</table:table-cell>"; lit "</table:table-row>"; lit "</table:table>";
  lit "<table:named-expressions> <a/> </table:named-expressions>"; lit "</office:spreadsheet>"; lit "</office:body>"; lit "</office:document>"].
Definition packed : str := concat flat_lines.
Definition spread : str := flat_map (fun l => l ++ nl2) flat_lines.
Lemma spread_indented : indented spread packed.
Proof.
  unfold indented.
  assert (A : exists x, read_events spread = Ok x) by (eexists; vm_compute; reflexivity). destruct A as (x & A).
  assert (B : exists y, read_events packed = Ok y) by (eexists; vm_compute; reflexivity). destruct B as (y & B).
  exists x, y. split; [exact A|]. split; [exact B|]. vm_compute in A, B. injection A as <-. injection B as <-.
  repeat first [apply thin_nil | apply thin_start | apply thin_end | apply thin_empty; [discriminate|] | apply thin_other
    | apply thin_drop; [reflexivity|] | apply thin_text | apply thin_ref].
Qed.
Example C76_fods_ex : WorkModel.read_fods false true (CBranch KSet cm_new) spread = WorkModel.read_fods false true (CBranch KSet cm_new) packed
  /\ (let* w := WorkModel.read_fods false true (CBranch KSet cm_new) spread in
      Ok (MetaModel.m_title (wb_meta w), map (fun s => map (fun e => c_value (snd e)) (tb_cells s)) (wb_sheets w), wb_extra w))
     = Ok (lit " T ", [[VText (lit "a b ")]], [XTag (lit "table:named-expressions") [] [XText (lit " "); XTag (lit "a") [] []; XText (lit " ")]]).
Proof. split; [exact (proj1 (C76_fods _ _ _ _ _ spread_indented))|vm_compute; reflexivity]. Qed.
Example C76_insert_ex : indented (lit "<office:document><office:meta>" ++ nl2 ++ lit "</office:meta></office:document>") (lit "<office:document><office:meta></office:meta></office:document>").
Proof.
  apply (C76_insert (lit "<office:document><office:meta>") (lit "</office:meta></office:document>") nl2
    [EStart (lit "office:document") []; EStart (lit "office:meta") []] [EStart (lit "office:document") []; EStart (lit "office:meta") []; EEnd (lit "office:meta"); EEnd (lit "office:document")]);
    try reflexivity; exact I.
Qed.

(** ** What is not true *)

(** "Indentation between any two tags changes nothing": inside the elements that are kept as trees it is kept too. *)
Definition extras (t : str) : res (list xnode) :=
  let* w := WorkModel.read_fods false true (CBranch KSet cm_new) (lit "<office:document><office:body><office:spreadsheet>" ++ t ++ lit "</office:spreadsheet></office:body></office:document>") in Ok (wb_extra w).
Theorem C76_tree_refuted : exists a b, extras (a ++ b) = Ok [XTag (lit "table:database-ranges") [] [XTag (lit "a") [] []]]
  /\ extras (a ++ nl2 ++ b) = Ok [XTag (lit "table:database-ranges") [] [XText nl2; XTag (lit "a") [] []]].
Proof. exists (lit "<table:database-ranges>"), (lit "<a/></table:database-ranges>"). split; vm_compute; reflexivity. Qed.
(** The exception in [thin]: behind an empty script element all that follows belongs to the script, in a file that ends there also the indentation. *)
Definition script_trees (t : str) : res (list str) :=
  let* evs := read_events t in let* (p, _) := reading (length evs) None (fods_step false) (work0 (CBranch KSet cm_new)) evs in Ok (map (fun s => concat (map (fun x => match x with XText y => y | _ => [] end) (sc_body s))) (fst (wb_scripts (snd p)))).
Theorem C76_script_refuted : exists a, script_trees a = Ok [[]] /\ script_trees (a ++ nl2) = Ok [nl2].
Proof. exists (lit "<office:document><office:scripts><office:script/>"). split; vm_compute; reflexivity. Qed.

Print Assumptions C76_ods.
Print Assumptions C76_ods_only.
Print Assumptions C76_fods.
Print Assumptions C76_insert.
Print Assumptions C76_steps.
Print Assumptions C76_flat.
Print Assumptions C76_tree_refuted.
Print Assumptions C76_script_refuted.
