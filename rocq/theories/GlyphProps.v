(** Characters can be written as themselves or as references, values in either quotes and tags with any white space. *)
From Verif Require Import Base Lib XmlModel XmlProofs CellModel CellIoModel DrawModel HeaderModel TableModel CloneModel BookModel ScriptModel ValidModel StyleModel MetaModel ConfigModel WorkModel TermModel TermSpec TermProofs GlyphSpec GlyphProofs.
From Verif Require SkipProofs SkipProps.

Theorem C80_ods ign rep c0 f f' : same_glyphs (fl_meta f) (fl_meta f') -> same_glyphs (fl_settings f) (fl_settings f') -> same_glyphs (fl_styles f) (fl_styles f') -> same_glyphs (fl_content f) (fl_content f') ->
  WorkModel.read_ods ign rep c0 f = WorkModel.read_ods ign rep c0 f'.
Proof.
  intros A B C D. unfold WorkModel.read_ods. rewrite (file_same _ (work0 c0) _ _ meta_file_blind SkipProofs.meta_file_shrinks A).
  destruct (read_file meta_file_step (work0 c0) (fl_meta f')) as [w| |]; [|reflexivity|reflexivity]. cbn [bind]. rewrite (file_same _ w _ _ settings_file_blind SkipProofs.settings_file_shrinks B).
  destruct (read_file settings_file_step w (fl_settings f')) as [w1| |]; [|reflexivity|reflexivity]. cbn [bind]. rewrite (file_same _ w1 _ _ styles_file_blind SkipProofs.styles_file_shrinks C).
  destruct (read_file styles_file_step w1 (fl_styles f')) as [w2| |]; [|reflexivity|reflexivity]. cbn [bind]. now rewrite (file_same _ w2 _ _ (content_blind ign) (content_shrinks ign) D).
Qed.
Theorem C80_ods_only ign rep c0 f f' : same_glyphs (fl_content f) (fl_content f') -> read_ods_only ign rep c0 f = read_ods_only ign rep c0 f'.
Proof. intros D. unfold read_ods_only. now rewrite (file_same _ _ _ _ (content_blind ign) (content_shrinks ign) D). Qed.
Theorem C80_fods ign rep c0 t t' : same_glyphs t t' ->
  WorkModel.read_fods ign rep c0 t = WorkModel.read_fods ign rep c0 t' /\ read_fods_only ign rep c0 t = read_fods_only ign rep c0 t'.
Proof.
  intros A. unfold WorkModel.read_fods, read_fods_only. split.
  - now rewrite (file_same _ _ _ _ (fods_blind ign) (fods_shrinks ign) A).
  - now rewrite (file_same _ _ _ _ (fods_only_blind ign) (fods_only_shrinks ign) A).
Qed.

(** ** One reference of a text written in another way *)

Lemma nested_same evs evs' : Forall2 same_event evs evs' -> forall st, nested st evs = nested st evs'.
Proof.
  induction 1 as [|e e' r r' H _ IH]; intros st; [reflexivity|]. destruct H as [-> |(c & t & t' & -> & -> & _)]; [|apply IH].
  destruct e'; cbn [nested]; try apply IH. destruct st; [reflexivity|]. now rewrite IH.
Qed.
Lemma same_refl evs : Forall2 same_event evs evs.
Proof. induction evs; constructor; [now left|assumption]. Qed.
Theorem C80_reference a b c t t' ea evs : lex (XmlModel.MText []) a = Ok ea -> names_char c t -> names_char c t' -> read_events (a ++ reference t ++ b) = Ok evs ->
  same_glyphs (a ++ reference t ++ b) (a ++ reference t' ++ b).
Proof.
  intros A T T' R. pose proof R as R0. unfold read_events in R.
  rewrite (SkipProofs.lex_cut a _ ea _ A) in R by (cbn; now right). rewrite (lex_reference t b (names_tame _ _ T)) in R.
  destruct (lex (XmlModel.MText []) b) as [r| |] eqn:E; cbn [bind] in R; try discriminate. destruct (nested [] (ea ++ ERef t :: r)) eqn:N; [|discriminate]. injection R as <-.
  assert (S : Forall2 same_event (ea ++ ERef t :: r) (ea ++ ERef t' :: r)).
  { apply Forall2_app; [apply same_refl|]. constructor; [right; exists c, t, t'; auto|apply same_refl]. }
  exists (ea ++ ERef t :: r), (ea ++ ERef t' :: r). split; [exact R0|]. split; [|exact S]. unfold read_events.
  rewrite (SkipProofs.lex_cut a _ ea _ A) by (cbn; now right). rewrite (lex_reference t' b (names_tame _ _ T')), E. cbn [bind]. now rewrite <- (nested_same _ _ S), N.
Qed.
Theorem C80_flat ign rep c0 a b c t t' ea evs : lex (XmlModel.MText []) a = Ok ea -> names_char c t -> names_char c t' -> read_events (a ++ reference t ++ b) = Ok evs ->
  WorkModel.read_fods ign rep c0 (a ++ reference t ++ b) = WorkModel.read_fods ign rep c0 (a ++ reference t' ++ b).
Proof. intros A T T' R. apply C80_fods. eapply C80_reference; eauto. Qed.

(** ** Tags *)

(** White space, quotes and references in the values of a tag are no part of what the readers see. *)
Theorem C80_tag a b e x x' ea : lex (XmlModel.MText []) a = Ok ea -> tag_text e x -> tag_text e x' -> read_events (a ++ x ++ b) = read_events (a ++ x' ++ b).
Proof.
  intros A X X'. assert (L : forall y, tag_text e y -> lex (XmlModel.MText []) (a ++ y ++ b) = (let* r := lex (XmlModel.MText []) b in Ok (ea ++ e :: r))).
  { intros y Y. rewrite (SkipProofs.lex_cut a _ ea _ A) by (destruct Y; now left). rewrite (tag_parse e y b Y). destruct (lex (XmlModel.MText []) b); reflexivity. }
  unfold read_events. now rewrite (L x X), (L x' X').
Qed.
Theorem C80_tag_flat ign rep c0 a b e x x' ea : lex (XmlModel.MText []) a = Ok ea -> tag_text e x -> tag_text e x' ->
  WorkModel.read_fods ign rep c0 (a ++ x ++ b) = WorkModel.read_fods ign rep c0 (a ++ x' ++ b) /\ read_fods_only ign rep c0 (a ++ x ++ b) = read_fods_only ign rep c0 (a ++ x' ++ b).
Proof. intros A X X'. unfold WorkModel.read_fods, read_fods_only, read_file. rewrite (C80_tag a b e x x' ea A X X'). split; reflexivity. Qed.
(** Each tag is read as what it says, so all that is written of a value comes back. *)
Theorem C80_value q v s : quoted q v s -> unescape s = Ok v.
Proof. apply quoted_value. Qed.
Theorem C80_event e x : tag_text e x -> lex (XmlModel.MText []) x = Ok [e].
Proof. intros X. rewrite <- (app_nil_r x), (tag_parse e x [] X). reflexivity. Qed.

(** ** A character of a text, itself or as a reference *)

(** In a paragraph of a cell, as long as there is no tag before it. *)
Theorem C80_para ign s tag x a pc st t c n u r : SkipProps.no_tag pc -> names_char c n ->
  table_loop ign s (MCell tag x (KPara a pc st)) (EText t :: ERef n :: EText u :: r) = table_loop ign s (MCell tag x (KPara a pc st)) (EText (t ++ c :: u) :: r).
Proof.
  intros N C. cbn [table_loop table_step cell_step para_step bind]. rewrite (names_entity _ _ C). cbn [bind table_step cell_step para_step].
  replace (p_text u (p_text [c] (p_text t pc))) with (p_text (t ++ c :: u) pc); [reflexivity|]. destruct pc; cbn [p_text]; [now rewrite <- app_assoc|now rewrite <- !app_assoc|contradiction].
Qed.
(** In the fields of the metadata, in settings, and in the texts of formats. *)
Theorem C80_field m n f t x c k y r : names_char c k -> meta_loop (MetaModel.MText m n f t) (EText x :: ERef k :: EText y :: r) = meta_loop (MetaModel.MText m n f t) (EText (x ++ c :: y) :: r).
Proof. intros C. cbn [meta_loop mstep bind]. rewrite (names_entity _ _ C). cbn [bind mstep]. now rewrite <- !app_assoc. Qed.
Theorem C80_setting g p st x c k y r : names_char c k -> config_loop (CInside g (Some p) st) (EText x :: ERef k :: EText y :: r) = config_loop (CInside g (Some p) st) (EText (x ++ c :: y) :: r).
Proof. intros C. cbn [config_loop cstep bind pe_name pe_type pe_text]. rewrite (names_entity _ _ C). cbn [bind cstep pe_name pe_type pe_text]. now rewrite <- !app_assoc. Qed.
Theorem C80_part n stop s x c k y r : names_char c k ->
  reading (S (S (S n))) stop text_step s (EText x :: ERef k :: EText y :: r) = reading (S n) stop text_step s (EText (x ++ c :: y) :: r).
Proof.
  intros C. cbn [reading text_step bind]. rewrite (names_entity _ _ C). cbn [bind text_step]. unfold append_content. cbn [pt_type pt_attr pt_pos pt_content]. destruct (pt_content s); now rewrite <- !app_assoc.
Qed.
(** In the creator and the date of an annotation and in the title and the description of a frame. *)
Theorem C80_label n t x c k y : names_char c k ->
  (let* r := rtext_step n t (EText x) in match r with inl t1 => let* r := rtext_step n t1 (ERef k) in match r with inl t2 => rtext_step n t2 (EText y) | inr z => Ok (inr z) end | inr z => Ok (inr z) end)
  = rtext_step n t (EText (x ++ c :: y)).
Proof. intros C. cbn [rtext_step bind]. rewrite (names_entity _ _ C). cbn [bind rtext_step]. now rewrite <- !app_assoc. Qed.

(** ** Examples *)

Import SkipProps.
Definition two_cells (t u : str) : str := head_text ++ row_text t ++ row_text u ++ tail_text.
(** "a<b" and "x & y" with a reference in three spellings each. *)
Example C80_flat_ex : cells_of (two_cells (lit "a&lt;b") (lit "x &amp; y")) = Ok [[VText (lit "a<b"); VText (lit "x & y")]]
  /\ cells_of (two_cells (lit "a&#60;b") (lit "x &#x26; y")) = Ok [[VText (lit "a<b"); VText (lit "x & y")]]
  /\ cells_of (two_cells (lit "a&#x3C;b") (lit "&#0120; &#038; &#X79;")) <> cells_of (two_cells (lit "a&#x3c;b") (lit "&#x78; &#38; &#121;"))
  /\ cells_of (two_cells (lit "a&#x0003C;b") (lit "&#0120; &#038; &#x79;")) = Ok [[VText (lit "a<b"); VText (lit "x & y")]].
Proof. split; [vm_compute; reflexivity|]. split; [vm_compute; reflexivity|]. split; [vm_compute; discriminate|vm_compute; reflexivity]. Qed.
Example C80_names_ex : names_char 60 (lit "lt") /\ names_char 60 (lit "#60") /\ names_char 60 (lit "#x3C") /\ names_char 60 (lit "#x3c") /\ names_char 60 (lit "#0060") /\ names_char 8364 (lit "#x20aC").
Proof.
  assert (D6 : dec_digit 54) by (unfold dec_digit; lia). assert (D0 : dec_digit 48) by (unfold dec_digit; lia).
  assert (Sc : scalar 60) by (unfold scalar; lia).
  split; [constructor|]. split; [|split; [|split; [|split]]].
  - apply (NDec (lit "60") 60); [discriminate| |exact Sc]. apply (DMore [54] 6 48); [apply (DMore [] 0 54); [constructor|exact D6]|exact D0].
  - apply (NHex (lit "3C") 60); [discriminate| |exact Sc]. apply (XMore [51] 3 67 12); [apply (XMore [] 0 51 3); [constructor|apply (HDec 51); lia]|apply (HUp 67); lia].
  - apply (NHex (lit "3c") 60); [discriminate| |exact Sc]. apply (XMore [51] 3 99 12); [apply (XMore [] 0 51 3); [constructor|apply (HDec 51); lia]|apply (HLow 99); lia].
  - apply (NDec (lit "0060") 60); [discriminate| |exact Sc]. apply (DMore (lit "006") 6 48); [|exact D0]. apply (DMore (lit "00") 0 54); [|exact D6].
    apply (DMore (lit "0") 0 48); [|exact D0]. apply (DMore [] 0 48); [constructor|exact D0].
  - apply (NHex (lit "20aC") 8364); [discriminate| |unfold scalar; lia]. apply (XMore (lit "20a") 522 67 12); [|apply (HUp 67); lia]. apply (XMore (lit "20") 32 97 10); [|apply (HLow 97); lia].
    apply (XMore (lit "2") 2 48 0); [|apply (HDec 48); lia]. apply (XMore [] 0 50 2); [constructor|apply (HDec 50); lia].
Qed.
Example C80_tag_ex : lex (XmlModel.MText []) (lit "<a b='x' c=""y z""/>") = Ok [EEmpty (lit "a") [(lit "b", lit "x"); (lit "c", lit "y z")]]
  /\ tag_text (EEmpty (lit "a") [(lit "b", lit "x"); (lit "c", lit "y z")]) (lit "<a b = ""&#120;""  c='y z' />") /\ tag_text (EEmpty (lit "a") [(lit "b", lit "x"); (lit "c", lit "y z")]) (lit "<a b='x' c=""y z""/>").
Proof.
  assert (W : white (lit " ")) by (intros c [<-|[]]; now left). assert (W2 : white (lit "  ")) by (intros c [<-|[<-|[]]]; now left). assert (W0 : white []) by intros c [].
  assert (N : forall x, 97 <= x <= 122 -> plain_name [x]) by (intros x X; split; [discriminate|]; intros c [<-|[]]; lia).
  assert (YZ : forall q, q = 34 \/ q = 39 -> quoted q (lit "y z") (lit "y z")) by (intros q Q; repeat (apply QSelf; [discriminate|destruct Q as [-> | ->]; discriminate|]); constructor).
  assert (X : forall q, q = 34 \/ q = 39 -> quoted q (lit "x") (lit "x")) by (intros q Q; apply QSelf; [discriminate|destruct Q as [-> | ->]; discriminate|constructor]).
  split; [vm_compute; reflexivity|]. split.
  - apply (TEmpty (lit "a") _ (lit " b = ""&#120;""  c='y z' ")); [apply (N 97); lia|].
    apply (AMore (lit " ") (lit "b") (lit " ") (lit " ") 34 (lit "x") (lit "&#120;") _ (lit "  c='y z' ")); try assumption; [discriminate|apply (N 98); lia|now left| |].
    + apply (QRef 34 120 (lit "#120") [] []); [|constructor]. apply (NDec (lit "120") 120); [discriminate| |unfold scalar; lia].
      apply (DMore (lit "12") 12 48); [|unfold dec_digit; lia]. apply (DMore (lit "1") 1 50); [|unfold dec_digit; lia]. apply (DMore [] 0 49); [constructor|unfold dec_digit; lia].
    + apply (AMore (lit "  ") (lit "c") [] [] 39 (lit "y z") (lit "y z") [] (lit " ")); try assumption; [discriminate|apply (N 99); lia|now right|apply YZ; now right|now constructor].
  - apply (TEmpty (lit "a") _ (lit " b='x' c=""y z""")); [apply (N 97); lia|].
    apply (AMore (lit " ") (lit "b") [] [] 39 (lit "x") (lit "x") _ (lit " c=""y z""")); try assumption; [discriminate|apply (N 98); lia|now right|apply X; now right|].
    apply (AMore (lit " ") (lit "c") [] [] 34 (lit "y z") (lit "y z") [] []); try assumption; [discriminate|apply (N 99); lia|now left|apply YZ; now left|now constructor].
Qed.

(** A character and its reference are not the same in a text of the metadata that is of no field of its own, in a text in a number, and in a text with tags. *)
Theorem C80_user_refuted : exists x c t y, names_char c t /\ users (x ++ c :: y) = Ok [(lit "n", MString (x ++ c :: y))] /\ users (x ++ reference t ++ y) = Ok [(lit "n", MString y)].
Proof. exists (lit "a"), 62, (lit "gt"), (lit "b"). split; [constructor|]. split; vm_compute; reflexivity. Qed.
Theorem C80_number_refuted : exists x c t y, names_char c t /\ number_text (x ++ c :: y) = Ok [Some (x ++ c :: y)] /\ number_text (x ++ reference t ++ y) = Ok [Some y].
Proof. exists (lit "a"), 62, (lit "gt"), (lit "b"). split; [constructor|]. split; vm_compute; reflexivity. Qed.
Theorem C80_tree_refuted : exists x c t y, names_char c t
  /\ cells_of (head_text ++ row_text (lit "<text:s/>" ++ x ++ c :: y) ++ tail_text) <> cells_of (head_text ++ row_text (lit "<text:s/>" ++ x ++ reference t ++ y) ++ tail_text).
Proof. exists (lit "a"), 62, (lit "gt"), (lit "b"). split; [constructor|]. vm_compute. discriminate. Qed.
(** A reference to something the library does not know stays as it is written in a text, and makes a file unreadable in a value. *)
Theorem C80_unknown n v : hd 0 n <> 35 -> Forall tame n -> (forall c, ~ names_char c n) -> entity n = Ok (reference n) /\ unescape (reference n ++ v) = Err.
Proof.
  intros H T C. assert (R : resolve_char_ref n = Ok None) by now apply resolve_no_hash.
  assert (N : named_entity n = None).
  { unfold named_entity. repeat match goal with |- context [str_eqb n ?x] => destruct (str_eqb n x) eqn:? ; [exfalso; match goal with K : str_eqb n _ = true |- _ => apply str_eqb_eq in K; subst n; eapply C; constructor end|] end. reflexivity. }
  split; [unfold entity; rewrite R; cbn [bind]; now rewrite N|]. unfold unescape, reference. rewrite <- !app_assoc. cbn [app].
  change (unescape_from None (38 :: n ++ 59 :: v)) with (unescape_from (Some []) (n ++ 59 :: v)). rewrite (unescape_ref n T), app_nil_r. cbn [unescape_from]. change (59 =? c_semi) with true. cbv iota.
  rewrite rev_involutive, R. cbn [bind]. now rewrite N.
Qed.
Example C80_unknown_ex : cells_of (two_cells (lit "a&nbsp;b") (lit "&amp;nbsp;")) = Ok [[VText (lit "a&nbsp;b"); VText (lit "&nbsp;")]]
  /\ read_events (lit "<a b='&nbsp;'/>") = Err.
Proof. split; vm_compute; reflexivity. Qed.

Print Assumptions C80_ods.
Print Assumptions C80_ods_only.
Print Assumptions C80_fods.
Print Assumptions C80_reference.
Print Assumptions C80_flat.
Print Assumptions C80_tag.
Print Assumptions C80_tag_flat.
Print Assumptions C80_value.
Print Assumptions C80_event.
Print Assumptions C80_para.
Print Assumptions C80_field.
Print Assumptions C80_setting.
Print Assumptions C80_part.
Print Assumptions C80_label.
Print Assumptions C80_user_refuted.
Print Assumptions C80_number_refuted.
Print Assumptions C80_tree_refuted.
Print Assumptions C80_unknown.
