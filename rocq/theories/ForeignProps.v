(** Elements the library does not know change nothing that is read. *)
From Verif Require Import Base Lib NumModel XmlModel XmlSpec CellModel CellIoModel DrawModel HeaderModel TableModel CloneModel BookModel ScriptModel ValidModel StyleModel MetaModel ConfigModel WorkModel TermSpec TermProofs SkipSpec SkipProofs IndentSpec ForeignSpec ForeignProofs.

Theorem C78_ods ign rep c0 f f' : unpadded (fl_meta f) (fl_meta f') -> unpadded (fl_settings f) (fl_settings f') -> unpadded (fl_styles f) (fl_styles f') -> unpadded (fl_content f) (fl_content f') ->
  WorkModel.read_ods ign rep c0 f = WorkModel.read_ods ign rep c0 f'.
Proof.
  intros A B C D. unfold WorkModel.read_ods. rewrite (file_unpadded _ (work0 c0) _ _ meta_file_deaf meta_file_shrinks A).
  destruct (read_file meta_file_step (work0 c0) (fl_meta f')) as [w| |]; [|reflexivity|reflexivity]. cbn [bind]. rewrite (file_unpadded _ w _ _ settings_file_deaf settings_file_shrinks B).
  destruct (read_file settings_file_step w (fl_settings f')) as [w1| |]; [|reflexivity|reflexivity]. cbn [bind]. rewrite (file_unpadded _ w1 _ _ styles_file_deaf styles_file_shrinks C).
  destruct (read_file styles_file_step w1 (fl_styles f')) as [w2| |]; [|reflexivity|reflexivity]. cbn [bind]. now rewrite (file_unpadded _ w2 _ _ (content_deaf ign) (content_shrinks ign) D).
Qed.
Theorem C78_ods_only ign rep c0 f f' : unpadded (fl_content f) (fl_content f') -> read_ods_only ign rep c0 f = read_ods_only ign rep c0 f'.
Proof. intros D. unfold read_ods_only. now rewrite (file_unpadded _ _ _ _ (content_deaf ign) (content_shrinks ign) D). Qed.
Theorem C78_fods ign rep c0 t t' : unpadded t t' ->
  WorkModel.read_fods ign rep c0 t = WorkModel.read_fods ign rep c0 t' /\ read_fods_only ign rep c0 t = read_fods_only ign rep c0 t'.
Proof.
  intros A. unfold WorkModel.read_fods, read_fods_only. split.
  - now rewrite (file_unpadded _ _ _ _ (fods_deaf ign) (fods_shrinks ign) A).
  - now rewrite (file_unpadded _ _ _ _ (fods_only_deaf ign) (fods_only_shrinks ign) A).
Qed.

(** ** Elements put into a file, and elements put around a part of it *)

Definition no_empty_script (e : event) : bool := match e with EEmpty n _ => negb (str_eqb n script_name) | _ => true end.
Lemma nested_sieve evs : forall st, nested st evs = true -> forallb no_empty_script evs = true -> sieve st evs evs.
Proof.
  induction evs as [|e evs IH]; intros st N S; [constructor|]. cbn [forallb] in S. apply andb_true_iff in S as (S0 & S). destruct e; cbn [nested] in N; try (constructor; now apply IH).
  - apply sv_empty; [|now apply IH]. intros ->. cbn [no_empty_script] in S0. now rewrite str_eqb_refl in S0.
  - destruct st as [|m st]; [discriminate|]. apply andb_true_iff in N as (E & N). apply str_eqb_eq in E. subst m. apply sv_end. now apply IH.
Qed.
Lemma drop_sieve ex : forall st r r', forallb passed ex = true -> forallb structural st = true -> sieve st r r' -> sieve st (ex ++ r) r'.
Proof. induction ex as [|e ex IH]; intros st r r' P S H; [exact H|]. cbn [forallb app] in *. apply andb_true_iff in P as (P & Q). apply sv_drop; auto. Qed.
Lemma past_sieve ea rest : forall st r r', nested st (ea ++ rest) = true -> forallb no_empty_script ea = true -> sieve (left_open st ea) r r' -> sieve st (ea ++ r) (ea ++ r').
Proof.
  induction ea as [|e ea IH]; intros st r r' N S H; [exact H|]. cbn [app forallb] in *. apply andb_true_iff in S as (S0 & S). destruct e; cbn [nested left_open] in *; try (constructor; now apply IH).
  - apply sv_empty; [|now apply IH]. intros ->. cbn [no_empty_script] in S0. now rewrite str_eqb_refl in S0.
  - destruct st as [|m st]; [discriminate|]. apply andb_true_iff in N as (E & N). apply str_eqb_eq in E. subst m. apply sv_end. now apply IH.
Qed.
Lemma nested_past ea rest : forall st, nested st (ea ++ rest) = true -> nested (left_open st ea) rest = true.
Proof.
  induction ea as [|e ea IH]; intros st N; [exact N|]. cbn [app nested left_open] in *. destruct e; auto. destruct st as [|m st]; [discriminate|]. apply andb_true_iff in N as (_ & N). auto.
Qed.
Lemma nested_cut ea rest rest' : forall st, nested st (ea ++ rest) = true -> nested (left_open st ea) rest' = true -> nested st (ea ++ rest') = true.
Proof.
  induction ea as [|e ea IH]; intros st N M; [exact M|]. cbn [app nested left_open] in *. destruct e; auto. destruct st as [|m st]; [discriminate|]. apply andb_true_iff in N as (E & N). rewrite E. cbn [andb]. auto.
Qed.
(** Start tags and end tags match and all elements end. *)
Fixpoint balanced (st : list str) (evs : list event) : bool :=
  match evs with
  | [] => match st with [] => true | _ => false end
  | EStart n _ :: r => balanced (n :: st) r
  | EEnd n :: r => match st with m :: st' => str_eqb n m && balanced st' r | [] => false end
  | _ :: r => balanced st r
  end.
Lemma nested_app ex : forall st s rest, balanced st ex = true -> nested s rest = true -> nested (st ++ s) (ex ++ rest) = true.
Proof.
  induction ex as [|e ex IH]; intros st s rest A B; cbn [balanced nested app] in *; [destruct st; [exact B|discriminate]|].
  destruct e; auto; [exact (IH (n :: st) s rest A B)|]. destruct st as [|m st]; [discriminate|]. cbn [app]. apply andb_true_iff in A as (E & A). rewrite E. cbn [andb]. auto.
Qed.
(** [a] ends with a tag, the next tag begins with [b]; all elements that are open there are structural. What is put between is balanced, made
    of foreign elements and text, and ends with a tag. *)
Theorem C78_insert a b x ea ex evs : lex (XmlModel.MText []) a = Ok ea -> no_text_last ea -> forallb structural (left_open [] ea) = true ->
  lex (XmlModel.MText []) x = Ok ex -> no_text_last ex -> balanced [] ex = true -> forallb passed ex = true ->
  read_events (a ++ b) = Ok evs -> forallb no_empty_script evs = true -> unpadded (a ++ x ++ b) (a ++ b).
Proof.
  intros A L O X LX NX PX R S. pose proof R as R0. unfold read_events in R. apply bind_ok in R as (l & E & R). destruct (nested [] l) eqn:N; [|discriminate]. injection R as ->.
  rewrite (lex_cut_tag a _ ea b A L) in E. apply bind_ok in E as (eb & EB & E). injection E as <-. rewrite forallb_app in S. apply andb_true_iff in S as (S1 & S2).
  exists (ea ++ ex ++ eb), (ea ++ eb). split; [|split; [exact R0|]].
  - unfold read_events. rewrite (lex_cut_tag a _ ea _ A L), (lex_cut_tag x _ ex _ X LX), EB. cbn [bind].
    rewrite (nested_cut ea eb (ex ++ eb) [] N); [reflexivity|]. apply (nested_app ex [] _ eb NX). now apply nested_past.
  - eapply past_sieve; [exact N|exact S1|]. apply drop_sieve; [exact PX|exact O|]. apply nested_sieve; [now apply nested_past|exact S2].
Qed.
(** A foreign element around a part of a file. *)
Lemma left_open_app a : forall st b, left_open st (a ++ b) = left_open (left_open st a) b.
Proof. induction a as [|e a IH]; intros st b; [reflexivity|]. cbn [app left_open]. destruct e; apply IH. Qed.
Lemma nested_left ex : forall st s rest, balanced st ex = true -> left_open (st ++ s) (ex ++ rest) = left_open s rest.
Proof.
  induction ex as [|e ex IH]; intros st s rest A; cbn [balanced app left_open] in *; [destruct st; [reflexivity|discriminate]|].
  destruct e; auto; [exact (IH (n :: st) s rest A)|]. destruct st as [|m st]; [discriminate|]. apply andb_true_iff in A as (_ & A). cbn [tl app]. auto.
Qed.
Theorem C78_wrap a x b y c ea n at' eb evs : lex (XmlModel.MText []) a = Ok ea -> no_text_last ea -> forallb structural (left_open [] ea) = true ->
  lex (XmlModel.MText []) x = Ok [EStart n at'] -> lex (XmlModel.MText []) y = Ok [EEnd n] -> foreign n = true ->
  lex (XmlModel.MText []) b = Ok eb -> no_text_last eb -> balanced [] eb = true ->
  read_events (a ++ b ++ c) = Ok evs -> forallb no_empty_script evs = true -> unpadded (a ++ x ++ b ++ y ++ c) (a ++ b ++ c).
Proof.
  intros A L O X Y F B LB NB R S. pose proof R as R0. unfold read_events in R. apply bind_ok in R as (l & E & R). destruct (nested [] l) eqn:N; [|discriminate]. injection R as ->.
  rewrite (lex_cut_tag a _ ea _ A L), (lex_cut_tag b _ eb _ B LB) in E. apply bind_ok in E as (ebc & EB & E). injection E as <-. apply bind_ok in EB as (ec & EC & EB). injection EB as <-.
  rewrite !forallb_app in S. apply andb_true_iff in S as (S1 & S2). apply andb_true_iff in S2 as (S2 & S3).
  exists (ea ++ [EStart n at'] ++ eb ++ [EEnd n] ++ ec), (ea ++ eb ++ ec). split; [|split; [exact R0|]].
  - unfold read_events. rewrite (lex_cut_tag a _ ea _ A L), (lex_cut_tag x _ [EStart n at'] _ X I), (lex_cut_tag b _ eb _ B LB), (lex_cut_tag y _ [EEnd n] _ Y I), EC. cbn [bind].
    rewrite (nested_cut ea (eb ++ ec) _ [] N); [reflexivity|]. cbn [app nested]. apply (nested_app eb [] _ _ NB). cbn [nested]. rewrite str_eqb_refl. cbn [andb].
    apply nested_past in N. apply nested_past in N. pose proof (nested_left eb [] (left_open [] ea) [] NB) as Q. rewrite app_nil_r in Q. cbn [app left_open] in Q. now rewrite <- Q.
  - eapply past_sieve; [exact N|exact S1|]. apply (drop_sieve [EStart n at']); [cbn [forallb passed]; now rewrite F|exact O|].
    apply nested_past in N. pose proof (nested_left eb [] (left_open [] ea) [] NB) as Q. rewrite app_nil_r in Q. cbn [app left_open] in Q.
    eapply past_sieve; [exact N|exact S2|]. apply nested_past in N. rewrite Q in *. apply (drop_sieve [EEnd n]); [cbn [forallb passed]; now rewrite F|exact O|]. now apply nested_sieve.
Qed.
Theorem C78_flat ign rep c0 a b x ea ex evs : lex (XmlModel.MText []) a = Ok ea -> no_text_last ea -> forallb structural (left_open [] ea) = true ->
  lex (XmlModel.MText []) x = Ok ex -> no_text_last ex -> balanced [] ex = true -> forallb passed ex = true ->
  read_events (a ++ b) = Ok evs -> forallb no_empty_script evs = true -> WorkModel.read_fods ign rep c0 (a ++ x ++ b) = WorkModel.read_fods ign rep c0 (a ++ b).
Proof. intros. apply C78_fods. eapply C78_insert; eauto. Qed.

(** ** Examples *)

Definition pad (b : bool) (t : string) : str := if b then lit t else [].
(** Elements of other programs, wrappers of ODF 1.4 and extensions in many places. *)
Definition padded (b : bool) : str :=
  lit "<office:document office:version='1.3'>" ++ pad b "<x:stamp at='noon'>now<x:who/></x:stamp>" ++ lit "<office:meta><dc:title>T</dc:title>" ++ pad b "<meta:non-whitespace x='1'/>"
  ++ lit "</office:meta><office:settings>" ++ pad b "<x:all>" ++ lit "<config:config-item-set config:name='ooo:view-settings'>" ++ pad b "<config:other> 1 </config:other>"
  ++ lit "<config:config-item config:name='A' config:type='string'>x</config:config-item></config:config-item-set>" ++ pad b "</x:all>"
  ++ lit "</office:settings><office:automatic-styles>" ++ pad b "<text:list-style style:name='L1'><text:list-level-style-number/></text:list-style>"
  ++ lit "<style:style style:name='ce1' style:family='table-cell'>" ++ pad b "<loext:table-properties loext:x='1'/>" ++ lit "<style:text-properties fo:color='#000000'/></style:style></office:automatic-styles>"
  ++ lit "<office:body>" ++ pad b "<office:spreadsheet>" ++ lit "<table:table table:name='S'>" ++ pad b "<x:hint/><table:table-columns>" ++ lit "<table:table-column table:style-name='co1'/>" ++ pad b "</table:table-columns><x:rows>"
  ++ lit "<table:table-row>" ++ pad b "<x:row/>" ++ lit "<table:table-cell office:value-type='float' office:value='7'>" ++ pad b "<draw:rect draw:id='r'/>" ++ lit "<text:p>7</text:p>"
  ++ lit "</table:table-cell></table:table-row>" ++ pad b "</x:rows><calcext:sparkline-groups><calcext:sparkline-group/></calcext:sparkline-groups>" ++ lit "</table:table>" ++ pad b "</office:spreadsheet>" ++ lit "</office:body></office:document>".
Lemma padded_unpadded : unpadded (padded true) (padded false).
Proof.
  unfold unpadded.
  assert (A : exists x, read_events (padded true) = Ok x) by (eexists; vm_compute; reflexivity). destruct A as (x & A).
  assert (B : exists y, read_events (padded false) = Ok y) by (eexists; vm_compute; reflexivity). destruct B as (y & B).
  exists x, y. split; [exact A|]. split; [exact B|]. vm_compute in A, B. injection A as <-. injection B as <-.
  repeat first [apply sv_nil | apply sv_start | apply sv_end | apply sv_empty; [discriminate|] | apply sv_other | apply sv_text | apply sv_ref
    | apply sv_drop; [vm_compute; reflexivity|vm_compute; reflexivity|]].
Qed.
Example C78_fods_ex : WorkModel.read_fods false true (CBranch KSet cm_new) (padded true) = WorkModel.read_fods false true (CBranch KSet cm_new) (padded false)
  /\ (let* w := WorkModel.read_fods false true (CBranch KSet cm_new) (padded true) in
      Ok (MetaModel.m_title (wb_meta w), map (fun s => map (fun e => CellIoModel.value_type (c_value (snd e))) (tb_cells s)) (wb_sheets w))) = Ok (lit "T", [[TyNumber]]).
Proof. split; [exact (proj1 (C78_fods _ _ _ _ _ padded_unpadded))|vm_compute; reflexivity]. Qed.
Example C78_insert_ex : unpadded (lit "<office:document><office:meta>" ++ lit "<x:y>1<x:z/></x:y>" ++ lit "</office:meta></office:document>") (lit "<office:document><office:meta></office:meta></office:document>").
Proof.
  apply (C78_insert (lit "<office:document><office:meta>") (lit "</office:meta></office:document>") (lit "<x:y>1<x:z/></x:y>")
    [EStart (lit "office:document") []; EStart (lit "office:meta") []] [EStart (lit "x:y") []; EText (lit "1"); EEmpty (lit "x:z") []; EEnd (lit "x:y")]
    [EStart (lit "office:document") []; EStart (lit "office:meta") []; EEnd (lit "office:meta"); EEnd (lit "office:document")]); try (vm_compute; reflexivity); exact I.
Qed.
Example C78_wrap_ex : unpadded (lit "<office:document>" ++ lit "<x:y>" ++ lit "<office:meta></office:meta>" ++ lit "</x:y>" ++ lit "</office:document>") (lit "<office:document>" ++ lit "<office:meta></office:meta>" ++ lit "</office:document>").
Proof.
  apply (C78_wrap (lit "<office:document>") (lit "<x:y>") (lit "<office:meta></office:meta>") (lit "</x:y>") (lit "</office:document>")
    [EStart (lit "office:document") []] (lit "x:y") [] [EStart (lit "office:meta") []; EEnd (lit "office:meta")]
    [EStart (lit "office:document") []; EStart (lit "office:meta") []; EEnd (lit "office:meta"); EEnd (lit "office:document")]); try (vm_compute; reflexivity); exact I.
Qed.

(** ** What is not true *)

Definition in_cell (t : str) : res (list (list value)) :=
  let* w := WorkModel.read_fods false true (CBranch KSet cm_new) (lit "<office:document><office:body><table:table table:name='S'><table:table-row><table:table-cell office:value-type='string'>" ++ t
    ++ lit "</table:table-cell></table:table-row></table:table></office:body></office:document>") in
  Ok (map (fun s => map (fun e => c_value (snd e)) (tb_cells s)) (wb_sheets w)).
(** "An element the library does not know is passed over with all that is in it": the paragraphs of a shape that stands in a cell become text of the cell. *)
Theorem C78_inside_refuted : foreign (lit "draw:rect") = true /\ in_cell (lit "<text:p>A</text:p>") = Ok [[VText (lit "A")]]
  /\ in_cell (lit "<text:p>A</text:p><draw:rect><text:p>B</text:p></draw:rect>") = Ok [[VTextXml [XTag t_p [] [XText (lit "A")]; XTag t_p [] [XText (lit "B")]]]].
Proof. repeat split; vm_compute; reflexivity. Qed.
(** "Anywhere": in paragraphs and in the elements that are kept as trees every element is kept. *)
Theorem C78_kept_refuted : in_cell (lit "<text:p>A</text:p>") = Ok [[VText (lit "A")]] /\ in_cell (lit "<text:p>A<x:y/></text:p>") = Ok [[VTextXml [XTag t_p [] [XText (lit "A"); XTag (lit "x:y") [] []]]]].
Proof. split; vm_compute; reflexivity. Qed.

Print Assumptions C78_ods.
Print Assumptions C78_ods_only.
Print Assumptions C78_fods.
Print Assumptions C78_insert.
Print Assumptions C78_wrap.
Print Assumptions C78_flat.
Print Assumptions C78_inside_refuted.
Print Assumptions C78_kept_refuted.
