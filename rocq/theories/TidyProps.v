(** Any changes to a file that mean nothing, in any number and order, change nothing that is read; so a workbook that was saved survives them. *)
From Verif Require SkipSpec SkipProofs SkipProps IndentSpec IndentProofs IndentProps SpellSpec SpellProofs ForeignProofs JumbleFiles JumbleProofs GlyphSpec GlyphProofs GlyphProps.
From Verif Require Import Base Lib OMap NumModel EnumModel RefsModel XmlModel XmlSpec XmlProofs CellModel CellIoModel CellIoProofs HeaderModel TableModel.
From Verif Require Import BookModel BookProps NumSpec NumProofs CellIoSpec ScriptModel ScriptProofs ValidModel ValidProofs ValidProps ValidFlat.
From Verif Require Import MetaModel MetaProofs ConfigModel ConfigSpec ConfigProofs ConfigIo FlowProofs StyleModel StyleSpec StyleProofs StyleDocProofs.
From Verif Require Import TableSpec TableWhole TableProps CloneModel CloneProps WorkModel WorkSpec WorkFlow ExtraProofs WorkProofs TreeProofs TermProofs WorkProps TidySpec.
From Coq Require Import Permutation.

(** Each way to read a file. *)
Definition settled (step : workbook -> event -> list event -> res (workbook * list event)) : Prop := forall t t', tidied t t' -> forall w, read_file step w t = read_file step w t'.
Lemma settle step : shrinks step -> SkipProofs.blind step -> IndentProofs.deaf step -> SpellProofs.calm step -> SpellProofs.pairs step -> ForeignProofs.deaf step -> JumbleProofs.deaf step -> GlyphProofs.blind step -> settled step.
Proof.
  intros S A B C C' D E F t t' T. induction T as [t|t t' _ IH|t t' t'' _ IH _ IH'|t t' H|t t' H|t t' H|t t' H|t t' H|t t' H|a b e x x' ea L X X']; intros w.
  - reflexivity.
  - symmetry. apply IH.
  - rewrite IH. apply IH'.
  - now apply SkipProofs.file_alike.
  - now apply IndentProofs.file_indented.
  - now apply SpellProofs.file_respelt.
  - now apply ForeignProofs.file_unpadded.
  - now apply JumbleFiles.file_rearranged.
  - now apply GlyphProofs.file_same.
  - unfold read_file. now rewrite (GlyphProps.C80_tag a b e x x' ea L X X').
Qed.
Lemma settled_meta : settled meta_file_step.
Proof. apply settle; [apply SkipProofs.meta_file_shrinks|apply SkipProofs.meta_file_blind|apply IndentProofs.meta_file_deaf|apply SpellProofs.meta_file_calm|apply SpellProofs.meta_file_pairs|apply ForeignProofs.meta_file_deaf|apply JumbleFiles.meta_file_deaf|apply GlyphProofs.meta_file_blind]. Qed.
Lemma settled_settings : settled settings_file_step.
Proof. apply settle; [apply SkipProofs.settings_file_shrinks|apply SkipProofs.settings_file_blind|apply IndentProofs.settings_file_deaf|apply SpellProofs.settings_file_calm|apply SpellProofs.settings_file_pairs|apply ForeignProofs.settings_file_deaf|apply JumbleFiles.settings_file_deaf|apply GlyphProofs.settings_file_blind]. Qed.
Lemma settled_styles : settled styles_file_step.
Proof. apply settle; [apply SkipProofs.styles_file_shrinks|apply SkipProofs.styles_file_blind|apply IndentProofs.styles_file_deaf|apply SpellProofs.styles_file_calm|apply SpellProofs.styles_file_pairs|apply ForeignProofs.styles_file_deaf|apply JumbleFiles.styles_file_deaf|apply GlyphProofs.styles_file_blind]. Qed.
Lemma settled_content ign : settled (content_step ign).
Proof. apply settle; [apply content_shrinks|apply SkipProofs.content_blind|apply IndentProofs.content_deaf|apply SpellProofs.content_calm|apply SpellProofs.content_pairs|apply ForeignProofs.content_deaf|apply JumbleFiles.content_deaf|apply GlyphProofs.content_blind]. Qed.
Lemma settled_fods ign : settled (fods_step ign).
Proof. apply settle; [apply fods_shrinks|apply SkipProofs.fods_blind|apply IndentProofs.fods_deaf|apply SpellProofs.fods_calm|apply SpellProofs.fods_pairs|apply ForeignProofs.fods_deaf|apply JumbleFiles.fods_deaf|apply GlyphProofs.fods_blind]. Qed.
Lemma settled_fods_only ign : settled (fods_only_step ign).
Proof. apply settle; [apply fods_only_shrinks|apply SkipProofs.fods_only_blind|apply IndentProofs.fods_only_deaf|apply SpellProofs.fods_only_calm|apply SpellProofs.fods_only_pairs|apply ForeignProofs.fods_only_deaf|apply JumbleFiles.fods_only_deaf|apply GlyphProofs.fods_only_blind]. Qed.

Theorem C81_ods ign rep c0 f f' : tidied_files f f' -> read_ods ign rep c0 f = read_ods ign rep c0 f' /\ read_ods_only ign rep c0 f = read_ods_only ign rep c0 f'.
Proof.
  intros (A & B & C & D). split.
  - unfold read_ods. rewrite (settled_meta _ _ A). destruct (read_file meta_file_step (work0 c0) (fl_meta f')) as [w| |]; [|reflexivity|reflexivity]. cbn [bind].
    rewrite (settled_settings _ _ B). destruct (read_file settings_file_step w (fl_settings f')) as [w1| |]; [|reflexivity|reflexivity]. cbn [bind].
    rewrite (settled_styles _ _ C). destruct (read_file styles_file_step w1 (fl_styles f')) as [w2| |]; [|reflexivity|reflexivity]. cbn [bind]. now rewrite (settled_content ign _ _ D).
  - unfold read_ods_only. now rewrite (settled_content ign _ _ D).
Qed.
Theorem C81_fods ign rep c0 t t' : tidied t t' -> read_fods ign rep c0 t = read_fods ign rep c0 t' /\ read_fods_only ign rep c0 t = read_fods_only ign rep c0 t'.
Proof. intros T. unfold read_fods, read_fods_only. now rewrite (settled_fods ign _ _ T), (settled_fods_only ign _ _ T). Qed.

(** ** Saved, changed and read *)

Theorem C81_saved : forall w lm lse lst lc f f', work_ok false w ->
  (forall file, In file [lit "meta.xml"; lit "settings.xml"; lit "styles.xml"; lit "content.xml"] -> ns_ok (ns_of file w)) ->
  Permutation lm (put_all ns_meta (ns_of (lit "meta.xml") w)) -> Permutation lse (put_all ns_settings (ns_of (lit "settings.xml") w)) ->
  Permutation lst (put_all ns_styles (ns_of (lit "styles.xml") w)) -> Permutation lc (put_all ns_content (ns_of (lit "content.xml") w)) ->
  write_ods w lm lse lst lc = Ok f -> tidied_files f f' ->
  forall ign rep c0, Forall (few_repeats rep) (wb_sheets w) -> exists w', read_ods ign rep c0 f' = Ok w'
  /\ Forall2 (sheet_back false ign rep (wb_defaults w)) (wb_sheets w) (wb_sheets w')
  /\ wb_version w' = wb_version w /\ wb_meta w' = meta_back (wb_meta w) /\ plain (wb_config w') = strip (plain (wb_config w))
  /\ styles_after (wb_styles w) (wb_styles w')
  /\ (forall v, In v (all_valids w) -> style FValidation (nm_name v) (wb_valids w') = Some (Named (nm_name v) (no_messages (nm_body v))))
  /\ map norm (wb_extra w') = map norm (written_extras w).
Proof.
  intros w lm lse lst lc f f' K N Pm Pse Pst Pc W T ign rep c0 Fr. destruct (C51_ods w lm lse lst lc f K N Pm Pse Pst Pc W ign rep c0 Fr) as (w' & R & A & B & _ & _ & _ & _ & C & _ & D & _ & E & F & G).
  exists w'. rewrite <- (proj1 (C81_ods ign rep c0 f f' T)). repeat split; try assumption; (apply E || apply F || idtac).
Qed.
Theorem C81_saved_flat : forall w l t t', work_ok true w -> ns_ok (ns_of (lit "meta.xml") w) -> Permutation l (put_all ns_fods (ns_of (lit "meta.xml") w)) -> write_fods w l = Ok t -> tidied t t' ->
  forall ign rep c0, Forall (few_repeats rep) (wb_sheets w) -> exists w', read_fods ign rep c0 t' = Ok w'
  /\ Forall2 (sheet_back true ign rep (wb_defaults w)) (wb_sheets w) (wb_sheets w')
  /\ wb_version w' = wb_version w /\ wb_meta w' = meta_back (wb_meta w) /\ plain (wb_config w') = strip (plain (wb_config w)) /\ flat_styles_after (wb_styles w) (wb_styles w').
Proof.
  intros w l t t' K N P W T ign rep c0 Fr. destruct (C51_fods w l t K N P W ign rep c0 Fr) as (w' & R & A & B & _ & C & _ & D & _ & E & _).
  exists w'. rewrite <- (proj1 (C81_fods ign rep c0 t t' T)). repeat split; try assumption; (apply E || idtac).
Qed.

(** ** Example *)

Definition got (t : str) : list event := match read_events t with Ok l => l | _ => [] end.
Definition book0 (s1 s2 row : str) : str := lit "<office:document office:version='1.3'>" ++ s1 ++ lit "<office:body><office:spreadsheet>" ++ s2 ++ row ++ lit "</office:spreadsheet></office:body></office:document>".
Definition sheet_tag (b : bool) : str := if b then lit "<table:table table:name='S'>" else lit "<table:table  table:name = ""S"" >".
Definition row0 (b : bool) (amp : str) : str := sheet_tag b ++ lit "<table:table-row><table:table-cell office:value-type='string'><text:p>R" ++ GlyphSpec.reference amp ++ lit "D</text:p></table:table-cell></table:table-row></table:table>".
Definition nl4 : str := [10; 32; 32; 32; 32].
(** A file as it was written; with a comment; with an empty line; with another reference; and with a tag written in another way. *)
Definition step0 : str := book0 [] [] (row0 true (lit "amp")).
Definition step1 : str := book0 (SkipSpec.comment (lit " made by hand ")) [] (row0 true (lit "amp")).
Definition step2 : str := book0 (SkipSpec.comment (lit " made by hand ")) nl4 (row0 true (lit "amp")).
Definition step3 : str := book0 (SkipSpec.comment (lit " made by hand ")) nl4 (row0 true (lit "#x26")).
Definition step4 : str := book0 (SkipSpec.comment (lit " made by hand ")) nl4 (row0 false (lit "#x26")).
Example C81_ex : tidied step0 step4 /\ step0 <> step4
  /\ (let* w := read_fods false true (CBranch KSet cm_new) step4 in Ok (map (fun s => (tb_name s, map (fun e => c_value (snd e)) (tb_cells s))) (wb_sheets w))) = Ok [(lit "S", [VText (lit "R&D")])].
Proof.
  split; [|split; [vm_compute; discriminate|vm_compute; reflexivity]].
  apply (TThen _ step1). { apply TComments. exists (got step0), (got step1). repeat split; vm_compute; reflexivity. }
  apply (TThen _ step2). { apply TBack, TIndent. exists (got step2), (got step1). split; [vm_compute; reflexivity|]. split; [vm_compute; reflexivity|].
    apply (IndentProps.insert_thin (firstn 4 (got step1)) nl4 (skipn 4 (got step1))); vm_compute; reflexivity. }
  apply (TThen _ step3). { apply TGlyphs. apply (GlyphProps.C80_reference (lit "<office:document office:version='1.3'>" ++ SkipSpec.comment (lit " made by hand ") ++ lit "<office:body><office:spreadsheet>" ++ nl4 ++ sheet_tag true
      ++ lit "<table:table-row><table:table-cell office:value-type='string'><text:p>R") (lit "D</text:p></table:table-cell></table:table-row></table:table></office:spreadsheet></office:body></office:document>")
      38 (lit "amp") (lit "#x26") (firstn 10 (got step2)) (got step2)).
    - vm_compute. reflexivity.
    - constructor.
    - apply (GlyphSpec.NHex (lit "26") 38); [discriminate| |unfold GlyphSpec.scalar; lia]. apply (GlyphSpec.XMore [50] 2 54 6); [apply (GlyphSpec.XMore [] 0 50 2); [constructor|apply (GlyphSpec.HDec 50); lia]|apply (GlyphSpec.HDec 54); lia].
    - vm_compute. reflexivity. }
  assert (W : forall w, forallb (N.eqb 32) w = true -> GlyphSpec.white w). { intros w H c I. left. rewrite forallb_forall in H. specialize (H c I). lia. }
  assert (N : forall n, n <> [] -> forallb (fun c => (45 <=? c) && (c <=? 46) || (58 <=? c) && (c <=? 58) || (65 <=? c) && (c <=? 122)) n = true -> GlyphSpec.plain_name n).
  { intros n E H. split; [exact E|]. intros c I. rewrite forallb_forall in H. specialize (H c I). repeat split; lia. }
  assert (Q : forall q, q = 34 \/ q = 39 -> GlyphSpec.quoted q (lit "S") (lit "S")) by (intros q Q; apply GlyphSpec.QSelf; [discriminate|destruct Q as [-> | ->]; discriminate|constructor]).
  apply (TTag (lit "<office:document office:version='1.3'>" ++ SkipSpec.comment (lit " made by hand ") ++ lit "<office:body><office:spreadsheet>" ++ nl4)
    (lit "<table:table-row><table:table-cell office:value-type='string'><text:p>R&#x26;D</text:p></table:table-cell></table:table-row></table:table></office:spreadsheet></office:body></office:document>")
    (EStart (lit "table:table") [(lit "table:name", lit "S")]) (sheet_tag true) (sheet_tag false) (firstn 5 (got step3))).
  - vm_compute. reflexivity.
  - apply (GlyphSpec.TStart (lit "table:table") _ (lit " table:name='S'")); [apply N; [discriminate|reflexivity]|].
    apply (GlyphSpec.AMore (lit " ") (lit "table:name") [] [] 39 (lit "S") (lit "S") [] []); try (apply W; reflexivity); [discriminate|apply N; [discriminate|reflexivity]|now right|apply Q; now right|constructor; apply W; reflexivity].
  - apply (GlyphSpec.TStart (lit "table:table") _ (lit "  table:name = ""S"" ")); [apply N; [discriminate|reflexivity]|].
    apply (GlyphSpec.AMore (lit "  ") (lit "table:name") (lit " ") (lit " ") 34 (lit "S") (lit "S") [] (lit " ")); try (apply W; reflexivity); [discriminate|apply N; [discriminate|reflexivity]|now left|apply Q; now left|constructor; apply W; reflexivity].
Qed.

Print Assumptions C81_ods.
Print Assumptions C81_fods.
Print Assumptions C81_saved.
Print Assumptions C81_saved_flat.
