(** Lemmas about readers and the ways to write a reference. *)
From Verif Require Import Base Lib RefsSpec NumModel NumSpec NumProofs XmlModel XmlSpec XmlProofs CellModel CellIoModel DrawModel HeaderModel TableModel CloneModel BookModel ScriptModel ValidModel StyleModel MetaModel ConfigModel WorkModel TermModel TermSpec TermProofs GlyphSpec.

(** One way to write each reference. *)
Definition canon (t : str) : str :=
  match resolve_char_ref t with
  | Ok (Some c) => 35 :: show_N c
  | Ok None => match named_entity t with Some c => 35 :: show_N c | None => t end
  | _ => [35]
  end.
Definition clean (e : event) : event := match e with ERef t => ERef (canon t) | _ => e end.
Definition plain (evs : list event) : list event := map clean evs.
Definition lift {A} (x : res (A * list event)) : res (A * list event) :=
  match x with Ok (a, r) => Ok (a, plain r) | Err => Err | Panic => Panic end.
Lemma bind_lift {A B} (x : res (A * list event)) (k' k : A * list event -> res (B * list event)) :
  (forall a r, k' (a, plain r) = lift (k (a, r))) -> bind (lift x) k' = lift (bind x k).
Proof. intros H. destruct x as [(a & r)| |]; cbn; auto. Qed.
Lemma bind_lift_same {A B} (x : res A) (k' k : A -> res (B * list event)) :
  (forall a, k' a = lift (k a)) -> bind x k' = lift (bind x k).
Proof. intros H. destruct x as [a| |]; cbn; auto. Qed.
Lemma plain_cons e r : plain (e :: r) = clean e :: plain r. Proof. reflexivity. Qed.
Lemma plain_length r : length (plain r) = length r. Proof. apply map_length. Qed.
Lemma num_base_ok n d : numeral d n -> num_base 10 0 d = Some n.
Proof. intros (A & B & C). rewrite num_base_digits by exact B. f_equal. exact C. Qed.
Lemma resolve_shown c : char_ok c = true -> resolve_char_ref (35 :: show_N c) = Ok (Some c).
Proof.
  intros H. pose proof (show_N_numeral c) as N. pose proof (num_base_ok _ _ N) as E. destruct N as (A & B & C). destruct (show_N c) as [|x d] eqn:S; [congruence|].
  cbn [resolve_char_ref]. change (35 =? 35) with true. cbv iota. assert (48 <= x <= 57) by now inversion B. replace (x =? 120) with false by lia. unfold num_ref. rewrite E, H. reflexivity.
Qed.
Lemma num_ref_ok b d c : num_ref b d = Ok (Some c) -> char_ok c = true.
Proof. unfold num_ref. destruct d; [discriminate|]. destruct (num_base b 0 _); [|discriminate]. destruct (char_ok n) eqn:E; [|discriminate]. intros H. injection H as <-. exact E. Qed.
Lemma resolve_ok t c : resolve_char_ref t = Ok (Some c) -> char_ok c = true.
Proof.
  unfold resolve_char_ref. destruct t as [|x d]; [discriminate|]. destruct (x =? 35); [|discriminate]. destruct d as [|y h]; [discriminate|]. destruct (y =? 120); apply num_ref_ok.
Qed.
Lemma named_ok t c : named_entity t = Some c -> char_ok c = true.
Proof. unfold named_entity. repeat (destruct (str_eqb t _); [intros H; injection H as <-; reflexivity|]). discriminate. Qed.
Lemma entity_canon t : entity (canon t) = entity t.
Proof.
  unfold canon. destruct (resolve_char_ref t) as [[c|]| |] eqn:E.
  - unfold entity. rewrite E, (resolve_shown _ (resolve_ok _ _ E)). reflexivity.
  - destruct (named_entity t) as [c|] eqn:F; [|reflexivity]. unfold entity. rewrite E, F, (resolve_shown _ (named_ok _ _ F)). reflexivity.
  - unfold entity. rewrite E. reflexivity.
  - exfalso. unfold resolve_char_ref in E. destruct t as [|x d]; [discriminate|]. destruct (x =? 35); [|discriminate]. destruct d as [|y h]; [discriminate|].
    destruct (y =? 120); unfold num_ref in E; [destruct h|]; try discriminate; (destruct (num_base _ 0 _) as [n|]; [destruct (char_ok n)|]; discriminate).
Qed.
Lemma on_tag_clean e : on_tag (clean e) = on_tag e. Proof. destruct e; reflexivity. Qed.

Definition blind {S} (step : S -> event -> list event -> res (S * list event)) : Prop :=
  forall s e r, step s (clean e) (plain r) = lift (step s e r).
Lemma reading_plain {S} stop (step : S -> event -> list event -> res (S * list event)) : blind step -> 
  forall n s evs, reading n stop step s (plain evs) = lift (reading n stop step s evs).
Proof.
  intros B. induction n as [|n IH]; intros s evs; [destruct evs; reflexivity|]. destruct evs as [|e r]; [reflexivity|]. rewrite plain_cons. cbn [reading].
  replace (match clean e, stop with EEnd t, Some q => str_eqb t q | _, _ => false end) with (match e, stop with EEnd t, Some q => str_eqb t q | _, _ => false end) by (destruct e; reflexivity).
  destruct (match e, stop with EEnd t, Some q => str_eqb t q | _, _ => false end); [reflexivity|].
  rewrite (B s e r). destruct (step s e r) as [(s' & r')| |]; [|reflexivity|reflexivity]. cbn [lift bind]. apply IH.
Qed.
Lemma reading_same {S} stop (step : S -> event -> list event -> res (S * list event)) : blind step -> shrinks step ->
  forall s evs, reading (length (plain evs)) stop step s (plain evs) = lift (reading (length evs) stop step s evs).
Proof. intros. rewrite plain_length. now apply reading_plain. Qed.

(** ** Trees and text *)

Lemma xml_loop_plain super evs : forall st, read_xml_loop super st (plain evs) = lift (read_xml_loop super st evs).
Proof.
  induction evs as [|e evs IH]; intros st; [destruct st; reflexivity|]. rewrite plain_cons. destruct e; cbn [clean read_xml_loop].
  - apply IH.
  - apply bind_lift_same. intros s2. apply IH.
  - destruct (str_eqb n super); [destruct st; reflexivity|]. destruct st; [reflexivity|]. apply bind_lift_same. intros s2. apply IH.
  - apply bind_lift_same. intros s2. apply IH.
  - rewrite entity_canon. apply bind_lift_same. intros v. apply bind_lift_same. intros s2. apply IH.
  - apply IH.
Qed.
Lemma xml_plain n a b evs : read_xml n a b (plain evs) = lift (read_xml n a b evs).
Proof. unfold read_xml. destruct b; [reflexivity|apply xml_loop_plain]. Qed.
Lemma para_clean super a pc st e : para_step super a pc st (clean e) = para_step super a pc st e.
Proof. destruct e; try reflexivity. cbn [clean para_step]. now rewrite entity_canon. Qed.
Lemma para_plain super a evs : forall pc st, para_loop super a pc st (plain evs) = lift (para_loop super a pc st evs).
Proof.
  induction evs as [|e evs IH]; intros pc st; [reflexivity|]. rewrite plain_cons. cbn [para_loop]. rewrite para_clean. apply bind_lift_same. intros [(pc' & st')|t']; [apply IH|reflexivity].
Qed.
Lemma text_plain n a b evs : read_text_or_tag n a b (plain evs) = lift (read_text_or_tag n a b evs).
Proof. unfold read_text_or_tag. destruct b; [reflexivity|apply para_plain]. Qed.
Lemma message_plain {T} (ty : option (str -> res T)) m0 tag a b evs : read_message ty m0 tag a b (plain evs) = lift (read_message ty m0 tag a b evs).
Proof.
  unfold read_message. apply bind_lift_same. intros m. rewrite text_plain. apply bind_lift. intros t r. destruct t; reflexivity.
Qed.
Lemma valids_plain n : forall evs v bk, read_valids n (plain evs) v bk = lift (read_valids n evs v bk).
Proof.
  induction n as [|n IH]; intros evs v bk; [destruct evs; reflexivity|]. destruct evs as [|e r]; [reflexivity|]. rewrite plain_cons.
  assert (Q : forall T (ty : option (str -> res T)) m0 t a b (k : message T -> validation),
    (let* (x, r') := read_message ty m0 t a b (plain r) in read_valids n r' (k x) bk) = lift (let* (x, r') := read_message ty m0 t a b r in read_valids n r' (k x) bk)).
  { intros T ty m0 t a b k. rewrite message_plain. apply bind_lift. intros x r'. apply IH. }
  destruct e; cbn [clean read_valids].
  - destruct (str_eqb n0 t_valid); [apply bind_lift_same; intros w; apply bind_lift_same; intros (b1 & n1); apply IH|].
    destruct (str_eqb n0 t_err); [apply Q|]. destruct (str_eqb n0 t_help); [apply Q|]. apply IH.
  - destruct (str_eqb n0 t_err); [apply Q|]. destruct (str_eqb n0 t_help); [apply Q|]. apply IH.
  - destruct (str_eqb n0 t_valid); [apply bind_lift_same; intros (b1 & n1); apply IH|]. destruct (str_eqb n0 t_valids); [reflexivity|]. apply IH.
  - apply IH.
  - apply IH.
  - apply IH.
Qed.

(** ** Styles *)

Ltac by_parts := repeat match goal with
  | |- (let (_, _) := ?p in _) = lift _ => destruct p
  | |- (if ?b then _ else _) = lift _ => destruct b
  | |- match ?o with Some _ => _ | None => _ end = lift _ => destruct o
  | |- (let* _ := ?x in _) = lift (let* _ := ?x in _) => apply bind_lift_same; intro
  | |- Ok _ = lift (Ok _) => reflexivity
  | |- Err = lift Err => reflexivity
  | p : (_ * _)%type |- _ => destruct p
  end; try reflexivity.
Lemma font_blind : blind font_step.
Proof. intros s e r. unfold font_step. rewrite on_tag_clean; destruct (on_tag e) as [((n & a) & b)|]; by_parts. Qed.
Lemma fonts_plain o b evs : read_fonts o b (plain evs) = lift (read_fonts o b evs).
Proof. unfold read_fonts. rewrite (reading_same _ _ font_blind font_shrinks). apply bind_lift. reflexivity. Qed.
Lemma style_blind f : blind (style_step f).
Proof. intros s e r. unfold style_step. rewrite on_tag_clean; destruct (on_tag e) as [((n & a) & b)|]; [|reflexivity]. destruct f; by_parts. Qed.
Lemma style_plain f o u tag a b bk evs : read_style f o u tag a b bk (plain evs) = lift (read_style f o u tag a b bk evs).
Proof.
  unfold read_style. destruct (copy_style_attr a) as (nm & at'). destruct b; [apply bind_lift_same; reflexivity|].
  rewrite (reading_same _ _ (style_blind f) (style_shrinks f)). apply bind_lift. intros p r. destruct (fst p); [apply bind_lift_same; reflexivity|reflexivity].
Qed.
Lemma style_style_plain todo : forall o u tag a b bk evs, read_style_style todo o u tag a b bk (plain evs) = lift (read_style_style todo o u tag a b bk evs).
Proof.
  induction todo as [|(k & v) todo IH]; intros o u tag a b bk evs; cbn [read_style_style]; [reflexivity|]. destruct (str_eqb k k_family); [|apply IH].
  destruct (family_of (raw v)); [|reflexivity]. rewrite style_plain. apply bind_lift. intros. apply IH.
Qed.
Lemma part_blind ty : blind (match ty with PTextPart | PCurrency | PFill => text_step | PNumber => number_step | _ => skip_step end).
Proof. intros s e r. destruct ty; try reflexivity; destruct e; cbn [clean text_step number_step]; try rewrite entity_canon; by_parts. Qed.
Lemma part_plain ty tag a b evs : read_part ty tag a b (plain evs) = lift (read_part ty tag a b evs).
Proof. unfold read_part. destruct b; [reflexivity|]. rewrite (reading_same _ _ (part_blind ty) (part_shrinks ty)). apply bind_lift. reflexivity. Qed.
Lemma format_blind : blind format_step.
Proof.
  intros s e r. unfold format_step. rewrite on_tag_clean; destruct (on_tag e) as [((n & a) & b)|]; [|reflexivity]. destruct (part_of n).
  - rewrite part_plain. apply bind_lift. reflexivity.
  - destruct s. by_parts.
Qed.
Lemma format_plain f o u tag a bk evs : read_format f o u tag a bk (plain evs) = lift (read_format f o u tag a bk evs).
Proof.
  unfold read_format. destruct (copy_style_attr a). rewrite (reading_same _ _ format_blind format_shrinks). apply bind_lift. intros p r. apply bind_lift_same. reflexivity.
Qed.
Lemma page_blind : blind page_step.
Proof. intros (([us p h f] & hd) & ft) e r. unfold page_step. destruct e; cbn [clean]; by_parts. Qed.
Lemma page_plain a bk evs : read_page a bk (plain evs) = lift (read_page a bk evs).
Proof.
  unfold read_page. destruct (fold_left page_attr a _). rewrite (reading_same _ _ page_blind page_shrinks). apply bind_lift. intros q r. apply bind_lift_same. reflexivity.
Qed.
Lemma hf_blind : blind hf_step.
Proof.
  intros s e r. unfold hf_step. rewrite on_tag_clean; destruct (on_tag e) as [((n & a) & b)|]; [|reflexivity]. destruct s as ([d le ce ri co] & tc).
  destruct (str_eqb n t_left); [rewrite xml_plain; apply bind_lift; intros x r'; apply bind_lift_same; reflexivity|].
  destruct (str_eqb n t_center); [rewrite xml_plain; apply bind_lift; intros x r'; apply bind_lift_same; reflexivity|].
  destruct (str_eqb n t_right); [rewrite xml_plain; apply bind_lift; intros x r'; apply bind_lift_same; reflexivity|].
  destruct (str_eqb n t_p || str_eqb n t_h); [rewrite text_plain; apply bind_lift; reflexivity|reflexivity].
Qed.
Lemma hf_plain tag a evs : read_hf tag a (plain evs) = lift (read_hf tag a evs).
Proof.
  unfold read_hf. apply bind_lift_same. intros h. rewrite (reading_same _ _ hf_blind hf_shrinks). apply bind_lift. intros p r. destruct (snd p) as ([d le ce ri co] & tc). reflexivity.
Qed.
Lemma master_blind : blind master_step.
Proof. intros s e r. unfold master_step. destruct e; cbn [clean]; try reflexivity. destruct (hslot_of n); [|reflexivity]. rewrite hf_plain. apply bind_lift. reflexivity. Qed.
Lemma master_plain a bk evs : read_master a bk (plain evs) = lift (read_master a bk evs).
Proof.
  unfold read_master. destruct (fold_left master_attr a _). rewrite (reading_same _ _ master_blind master_shrinks). apply bind_lift. intros q r. apply bind_lift_same. reflexivity.
Qed.
Lemma styles_blind o : blind (styles_step o).
Proof.
  intros s e r. unfold styles_step. rewrite on_tag_clean; destruct (on_tag e) as [((n & a) & b)|]; [|reflexivity].
  destruct (str_eqb n t_style); [apply style_style_plain|]. destruct (str_eqb n t_default); [apply style_style_plain|]. destruct (format_of n); [apply format_plain|reflexivity].
Qed.
Lemma automatic_blind o : blind (automatic_step o).
Proof.
  intros s e r. unfold automatic_step. rewrite on_tag_clean; destruct (on_tag e) as [((n & a) & b)|]; [|reflexivity].
  destruct (str_eqb n t_style); [apply style_style_plain|]. destruct (str_eqb n t_page); [apply page_plain|]. destruct (format_of n); [apply format_plain|reflexivity].
Qed.
Lemma masters_blind : blind masters_step.
Proof. intros s e r. unfold masters_step. rewrite on_tag_clean; destruct (on_tag e) as [((n & a) & b)|]; [|reflexivity]. destruct (str_eqb n t_master); [apply master_plain|reflexivity]. Qed.
Lemma doc_blind o : blind (doc_step o).
Proof.
  intros s e r. unfold doc_step. destruct e; cbn [clean]; try reflexivity. destruct (str_eqb n t_fonts); [apply fonts_plain|].
  destruct (str_eqb n t_office_styles); [rewrite (reading_same _ _ (styles_blind o) (styles_shrinks o)); apply bind_lift; reflexivity|].
  destruct (str_eqb n t_automatic); [rewrite (reading_same _ _ (automatic_blind o) (automatic_shrinks o)); apply bind_lift; reflexivity|].
  destruct (str_eqb n t_masters); [rewrite (reading_same _ _ masters_blind masters_shrinks); apply bind_lift; reflexivity|reflexivity].
Qed.
Lemma scripts_blind : blind scripts_step.
Proof.
  intros s e r. unfold scripts_step. rewrite on_tag_clean; destruct (on_tag e) as [((n & a) & b)|]; [|reflexivity].
  destruct (str_eqb n t_script); [rewrite xml_plain; apply bind_lift; reflexivity|]. by_parts.
Qed.

(** ** Tables *)

Lemma tree_clean n st e : tree_step n st (clean e) = tree_step n st e. Proof. destruct e; cbn [clean]; try reflexivity. cbn [clean tree_step]. now rewrite entity_canon. Qed.
Lemma rtext_clean n st e : rtext_step n st (clean e) = rtext_step n st e. Proof. destruct e; cbn [clean]; try reflexivity. cbn [clean rtext_step]. now rewrite entity_canon. Qed.
Lemma sub_clean m e : sub_step m (clean e) = sub_step m e.
Proof. destruct m; cbn [sub_step]; try (destruct e; reflexivity); (rewrite tree_clean || rewrite rtext_clean); reflexivity. Qed.
Lemma cell_clean tag s m e : cell_step tag s m (clean e) = cell_step tag s m e.
Proof. destruct m; [destruct e; reflexivity| |]; cbn [cell_step]. - now rewrite para_clean. - now rewrite sub_clean. Qed.
Lemma table_clean ign s m e : table_step ign s m (clean e) = table_step ign s m e.
Proof. destruct m; [destruct e; reflexivity| |]; cbn [table_step]. - now rewrite cell_clean. - now rewrite tree_clean. Qed.
Lemma table_loop_plain ign evs : forall s m, table_loop ign s m (plain evs) = lift (table_loop ign s m evs).
Proof.
  induction evs as [|e evs IH]; intros s m; [reflexivity|]. rewrite plain_cons. cbn [table_loop]. rewrite table_clean. apply bind_lift_same. intros [(s' & m')|s']; [apply IH|reflexivity].
Qed.
Lemma table_plain ign e evs : read_table ign (clean e :: plain evs) = lift (read_table ign (e :: evs)).
Proof. unfold read_table. destruct e; cbn [clean]; try reflexivity. apply bind_lift_same. intros sh. rewrite table_loop_plain. apply bind_lift. reflexivity. Qed.
Lemma body_blind ign : blind (body_step ign).
Proof.
  intros s e r. unfold body_step. rewrite on_tag_clean; destruct (on_tag e) as [((n & a) & b)|]; [|reflexivity].
  destruct (negb b && str_eqb n t_valids); [rewrite plain_length, valids_plain; apply bind_lift; reflexivity|].
  destruct (negb b && str_eqb n t_table); [rewrite table_plain; apply bind_lift; reflexivity|].
  destruct (existsb (str_eqb n) _); [rewrite xml_plain; apply bind_lift; reflexivity|reflexivity].
Qed.
Lemma body_plain ign w evs : read_office_body ign w (plain evs) = lift (read_office_body ign w evs).
Proof. unfold read_office_body. rewrite (reading_same _ _ (body_blind ign) (body_shrinks ign)). apply bind_lift. reflexivity. Qed.

(** ** Files *)

Lemma mstep_clean e s : mstep (clean e) s = mstep e s. Proof. destruct e; cbn [clean]; try reflexivity. destruct s; try reflexivity. cbn [clean mstep]. now rewrite entity_canon. Qed.
Lemma meta_plain evs : forall s, meta_loop s (plain evs) = lift (meta_loop s evs).
Proof.
  induction evs as [|e evs IH]; intros s; [reflexivity|]. rewrite plain_cons. cbn [meta_loop]. rewrite mstep_clean. apply bind_lift_same. intros s'. destruct s'; [reflexivity|apply IH..].
Qed.
Lemma cstep_clean e s : cstep (clean e) s = cstep e s. Proof. destruct e; cbn [clean]; try reflexivity. destruct s as [c|c [p|] st]; try reflexivity. cbn [clean cstep]. now rewrite entity_canon. Qed.
Lemma config_plain evs : forall s, config_loop s (plain evs) = lift (config_loop s evs).
Proof.
  induction evs as [|e evs IH]; intros s; [reflexivity|]. rewrite plain_cons. cbn [config_loop]. rewrite cstep_clean. apply bind_lift_same. intros s'. destruct s'; [reflexivity|apply IH].
Qed.
Lemma scripts_plain s r : reading (length (plain r)) (Some t_scripts) scripts_step s (plain r) = lift (reading (length r) (Some t_scripts) scripts_step s r).
Proof. apply (reading_same _ _ scripts_blind scripts_shrinks). Qed.
Lemma content_blind ign : blind (content_step ign).
Proof.
  intros s e r. unfold content_step. destruct e; cbn [clean]; try reflexivity. destruct (str_eqb n (lit "office:document-content")); [apply bind_lift_same; reflexivity|].
  destruct (str_eqb n t_scripts); [rewrite scripts_plain; apply bind_lift; reflexivity|].
  destruct (existsb (str_eqb n) style_sections); [rewrite (doc_blind OContent _ (EStart n attrs)); apply bind_lift; reflexivity|].
  destruct (str_eqb n t_body); [apply body_plain|reflexivity].
Qed.
Lemma fods_blind ign : blind (fods_step ign).
Proof.
  intros s e r. unfold fods_step. destruct e; cbn [clean]; try reflexivity. destruct (str_eqb n (lit "office:document")); [apply bind_lift_same; reflexivity|].
  destruct (str_eqb n t_meta); [rewrite meta_plain; apply bind_lift; reflexivity|].
  destruct (str_eqb n t_settings); [rewrite config_plain; apply bind_lift; reflexivity|].
  destruct (str_eqb n t_scripts); [rewrite scripts_plain; apply bind_lift; reflexivity|].
  destruct (existsb (str_eqb n) style_sections); [rewrite (doc_blind OContent _ (EStart n attrs)); apply bind_lift; reflexivity|].
  destruct (str_eqb n t_body); [apply body_plain|reflexivity].
Qed.
Lemma fods_only_blind ign : blind (fods_only_step ign).
Proof. intros s e r. unfold fods_only_step. destruct e; cbn [clean]; try reflexivity. destruct (str_eqb n t_body); [apply body_plain|reflexivity]. Qed.
Lemma styles_file_blind : blind styles_file_step.
Proof.
  intros s e r. unfold styles_file_step. destruct e; cbn [clean]; try reflexivity. destruct (str_eqb n (lit "office:document-styles")); [apply bind_lift_same; reflexivity|].
  destruct (existsb (str_eqb n) style_sections); [rewrite (doc_blind OStyles _ (EStart n attrs)); apply bind_lift; reflexivity|reflexivity].
Qed.
Lemma meta_file_blind : blind meta_file_step.
Proof.
  intros s e r. unfold meta_file_step. destruct e; cbn [clean]; try reflexivity. destruct (str_eqb n (lit "office:document-meta")); [apply bind_lift_same; reflexivity|].
  destruct (str_eqb n t_meta); [rewrite meta_plain; apply bind_lift; reflexivity|reflexivity].
Qed.
Lemma settings_file_blind : blind settings_file_step.
Proof.
  intros s e r. unfold settings_file_step. destruct e; cbn [clean]; try reflexivity. destruct (str_eqb n (lit "office:document-settings")); [apply bind_lift_same; reflexivity|].
  destruct (str_eqb n t_settings); [rewrite config_plain; apply bind_lift; reflexivity|reflexivity].
Qed.

(** ** What references stand for *)

Lemma num_base_snoc b d c v : hex_val c = Some v -> v < b -> forall acc n, num_base b acc d = Some n -> num_base b acc (d ++ [c]) = Some (n * b + v).
Proof.
  intros H L. induction d as [|x d IH]; intros acc n E; cbn [app num_base] in *.
  - injection E as <-. rewrite H. replace (v <? b) with true by lia. reflexivity.
  - destruct (hex_val x) as [y|]; [|discriminate]. destruct (y <? b); [|discriminate]. now apply IH.
Qed.
Lemma hex_digit_val c v : hex_digit c v -> hex_val c = Some v /\ v < 16.
Proof.
  unfold hex_val, is_digit. intros [x H|x H|x H].
  - split; [|lia]. replace (48 <=? x) with true by lia. replace (x <=? 57) with true by lia. reflexivity.
  - split; [|lia]. replace (x <=? 57) with false by lia. rewrite andb_false_r. replace (97 <=? x) with true by lia. replace (x <=? 102) with true by lia. cbn [andb]. f_equal. lia.
  - split; [|lia]. replace (x <=? 57) with false by lia. rewrite andb_false_r. replace (97 <=? x) with false by lia. cbn [andb]. replace (65 <=? x) with true by lia. replace (x <=? 70) with true by lia. cbn [andb]. f_equal. lia.
Qed.
Lemma decimal_base d n : decimal d n -> num_base 10 0 d = Some n.
Proof.
  induction 1 as [|d n c H IH D]; [reflexivity|]. unfold dec_digit in D. rewrite (num_base_snoc 10 d c (c - 48)) with (n := n); [f_equal; lia| |lia|exact IH].
  unfold hex_val, is_digit. replace (_ && _)%bool with true by lia. reflexivity.
Qed.
Lemma hexadecimal_base d n : hexadecimal d n -> num_base 16 0 d = Some n.
Proof.
  induction 1 as [|d n c v H IH D]; [reflexivity|]. apply hex_digit_val in D as (D & L). rewrite (num_base_snoc 16 d c v) with (n := n); [f_equal; lia|exact D|exact L|exact IH].
Qed.
Lemma scalar_ok c : scalar c -> char_ok c = true.
Proof. unfold scalar, char_ok. intros H. destruct (c =? 0) eqn:A; [lia|]. destruct (c <=? 1114111) eqn:B; [|lia]. destruct ((55296 <=? c) && (c <=? 57343))%bool eqn:C; [lia|reflexivity]. Qed.
Lemma decimal_digits d n : decimal d n -> Forall dec_digit d.
Proof. induction 1; [constructor|]. apply Forall_app. auto. Qed.
Lemma hexadecimal_digits d n : hexadecimal d n -> Forall (fun c => exists v, hex_digit c v) d.
Proof. induction 1; [constructor|]. apply Forall_app. eauto. Qed.
(** What the two functions of the library make of it. *)
Lemma names_resolve c t : names_char c t -> match resolve_char_ref t with Ok (Some x) => x = c | Ok None => named_entity t = Some c | _ => False end.
Proof.
  intros [ | | | | |d n E D S|d n E D S]; try reflexivity.
  - pose proof (decimal_digits _ _ D) as F. pose proof (decimal_base _ _ D) as B. destruct d as [|x d]; [congruence|]. inversion F as [|? ? X ?]; subst. unfold dec_digit in X.
    change (lit "#" ++ x :: d) with (35 :: x :: d). cbn [resolve_char_ref]. change (35 =? 35) with true. cbv iota. replace (x =? 120) with false by lia. unfold num_ref. now rewrite B, (scalar_ok _ S).
  - pose proof (hexadecimal_base _ _ D) as B. destruct d as [|x d]; [congruence|]. change (lit "#x" ++ x :: d) with (35 :: 120 :: x :: d). cbn [resolve_char_ref].
    change (35 =? 35) with true. change (120 =? 120) with true. cbv iota. unfold num_ref. now rewrite B, (scalar_ok _ S).
Qed.
Lemma names_canon c t : names_char c t -> canon t = 35 :: show_N c.
Proof. intros H. apply names_resolve in H. unfold canon. destruct (resolve_char_ref t) as [[x|]| |]; [now subst|now rewrite H|contradiction|contradiction]. Qed.
Lemma names_entity c t : names_char c t -> entity t = Ok [c].
Proof. intros H. apply names_resolve in H. unfold entity. destruct (resolve_char_ref t) as [[x|]| |]; cbn [bind]; [now subst|now rewrite H|contradiction|contradiction]. Qed.
Lemma same_clean e e' : same_event e e' -> clean e = clean e'.
Proof. intros [-> |(c & t & t' & -> & -> & A & B)]; [reflexivity|]. cbn [clean]. now rewrite (names_canon _ _ A), (names_canon _ _ B). Qed.
Lemma same_plain evs evs' : Forall2 same_event evs evs' -> plain evs = plain evs'.
Proof. induction 1 as [|e e' r r' H _ IH]; [reflexivity|]. rewrite !plain_cons, IH. f_equal. now apply same_clean. Qed.
Lemma file_same step w t t' : blind step -> shrinks step -> same_glyphs t t' -> read_file step w t = read_file step w t'.
Proof.
  intros B K (evs & evs' & A & A' & P). apply same_plain in P. unfold read_file. rewrite A, A'. cbn [bind].
  assert (Q : forall l, (let* (p, _) := reading (length l) None step w l in Ok (snd p)) = (let* (p, _) := reading (length (plain l)) None step w (plain l) in Ok (snd p))).
  { intros l. rewrite (reading_same None step B K). destruct (reading (length l) None step w l) as [(p & r)| |]; reflexivity. }
  rewrite (Q evs), (Q evs'), P. reflexivity.
Qed.

(** ** References in a file *)

(** The characters of a reference. *)
Definition tame (c : char) : Prop := c <> 59 /\ c <> 38 /\ c <> 60 /\ c <> 62 /\ c <> 34 /\ c <> 39.
Ltac known_chars := match goal with |- Forall _ (lit ?s) => let v := eval vm_compute in (lit s) in change (lit s) with v; repeat (apply Forall_cons; [lia|]); apply Forall_nil end.
Lemma names_tame c t : names_char c t -> Forall tame t.
Proof.
  assert (L : forall x, Forall (fun c => (35 <= c <= 37) \/ (48 <= c <= 57) \/ (65 <= c <= 122)) x -> Forall tame x).
  { intros x. apply Forall_impl. intros y Y. unfold tame. lia. }
  intros [ | | | | |d n _ D _|d n _ D _]; apply L; try known_chars.
  - apply Forall_app. split; [known_chars|]. apply decimal_digits in D. revert D. apply Forall_impl. unfold dec_digit. intros y Y. lia.
  - apply Forall_app. split; [known_chars|]. apply hexadecimal_digits in D. revert D. apply Forall_impl. intros y (v & Y). inversion Y; subst; lia.
Qed.
Lemma lex_ref t : Forall tame t -> forall acc b, lex (MRef acc) (t ++ 59 :: b) = (let* r := lex (XmlModel.MText []) b in Ok (ERef (rev acc ++ t) :: r)).
Proof.
  induction 1 as [|x t X _ IH]; intros acc b.
  - cbn [app lex]. change (59 =? c_semi) with true. cbv iota. now rewrite app_nil_r.
  - cbn [app lex]. unfold tame in X. change c_semi with 59. change c_lt with 60. change c_amp with 38. replace (x =? 59) with false by lia. replace (x =? 60) with false by lia. replace (x =? 38) with false by lia.
    cbn [orb]. rewrite IH. cbn [rev]. now rewrite <- app_assoc.
Qed.
Lemma lex_reference t b : Forall tame t -> lex (XmlModel.MText []) (reference t ++ b) = (let* r := lex (XmlModel.MText []) b in Ok (ERef t :: r)).
Proof.
  intros T. unfold reference. rewrite <- !app_assoc. cbn [app lex]. change (38 =? c_lt) with false. change (38 =? c_amp) with true. cbv iota. rewrite (lex_ref t T []). cbn [rev app].
  destruct (lex (XmlModel.MText []) b); reflexivity.
Qed.

(** ** Values of attributes *)

Lemma unescape_ref t : Forall tame t -> forall acc s, unescape_from (Some acc) (t ++ 59 :: s) = unescape_from (Some (rev t ++ acc)) (59 :: s).
Proof.
  induction 1 as [|x t X _ IH]; intros acc s; [reflexivity|]. unfold tame in X. cbn [app]. rewrite <- app_comm_cons || idtac.
  change (unescape_from (Some acc) (x :: (t ++ 59 :: s))) with (if x =? c_semi then let* o := resolve_char_ref (rev acc) in
      match (match o with Some c => Some c | None => named_entity (rev acc) end) with Some y => let* r := unescape_from None (t ++ 59 :: s) in Ok (y :: r) | None => Err end
    else if x =? c_amp then Err else unescape_from (Some (x :: acc)) (t ++ 59 :: s)).
  change c_semi with 59. change c_amp with 38. replace (x =? 59) with false by lia. replace (x =? 38) with false by lia. rewrite IH. cbn [rev]. now rewrite <- app_assoc.
Qed.
Lemma quoted_value q v s : quoted q v s -> unescape s = Ok v.
Proof.
  unfold unescape. induction 1 as [|c v s A B H IH|c t v s A H IH]; [reflexivity| |].
  - cbn [unescape_from]. change c_amp with 38. replace (c =? 38) with false by lia. now rewrite IH.
  - unfold reference. rewrite <- !app_assoc. cbn [app]. change (unescape_from None (38 :: t ++ 59 :: s)) with (unescape_from (Some []) (t ++ 59 :: s)). rewrite (unescape_ref t (names_tame _ _ A)).
    rewrite app_nil_r. cbn [unescape_from]. change (59 =? c_semi) with true. cbv iota. rewrite rev_involutive. apply names_resolve in A.
    destruct (resolve_char_ref t) as [[x|]| |]; cbn [bind]; [subst|rewrite A|contradiction|contradiction]; now rewrite IH.
Qed.
Lemma quoted_without q v s : q = 34 \/ q = 39 -> quoted q v s -> Forall (fun c => c <> q) s.
Proof.
  intros Q. induction 1 as [|c v s A B H IH|c t v s A H IH]; [constructor|constructor; auto|]. unfold reference. repeat (apply Forall_app; split).
  - constructor; [lia|constructor].
  - generalize (names_tame _ _ A). apply Forall_impl. intros y. unfold tame. lia.
  - constructor; [lia|constructor].
  - exact IH.
Qed.

(** ** Tags *)

Lemma white_ws w c : white w -> In c w -> is_ws c = true.
Proof. intros W I. unfold is_ws. destruct (W c I) as [-> |[-> |[-> | ->]]]; reflexivity. Qed.
Lemma white_tail x w : white (x :: w) -> white w. Proof. intros W c I. apply W. now right. Qed.
Lemma before_white w : white w -> forall s, lex_attrs ABefore (w ++ s) = lex_attrs ABefore s.
Proof. induction w as [|x w IH]; intros W s; [reflexivity|]. cbn [app lex_attrs]. rewrite (white_ws _ x W (or_introl eq_refl)). apply IH, (white_tail _ _ W). Qed.
Lemma quote_white k w : white w -> forall s, lex_attrs (AQuote k) (w ++ s) = lex_attrs (AQuote k) s.
Proof. induction w as [|x w IH]; intros W s; [reflexivity|]. cbn [app lex_attrs]. rewrite (white_ws _ x W (or_introl eq_refl)). apply IH, (white_tail _ _ W). Qed.
Lemma after_white k w : white w -> forall s, lex_attrs (AAfterKey k) (w ++ s) = lex_attrs (AAfterKey k) s.
Proof. induction w as [|x w IH]; intros W s; [reflexivity|]. cbn [app lex_attrs]. rewrite (white_ws _ x W (or_introl eq_refl)). apply IH, (white_tail _ _ W). Qed.
Definition word (c : char) : Prop := is_ws c = false /\ c <> 61 /\ c <> 62 /\ c <> 47 /\ c <> 34 /\ c <> 39 /\ c <> 33 /\ c <> 63.
Lemma plain_word n : plain_name n -> n <> [] /\ Forall word n.
Proof. intros (A & B). split; [exact A|]. apply Forall_forall. intros c I. specialize (B c I). unfold word, is_ws. repeat split; try lia. Qed.
Lemma key_word k : Forall word k -> forall acc s, lex_attrs (AKey acc) (k ++ s) = lex_attrs (AKey (rev k ++ acc)) s.
Proof.
  induction 1 as [|x k (X & X1 & _) _ IH]; intros acc s; [reflexivity|]. cbn [app lex_attrs]. change c_eq with 61. replace (x =? 61) with false by lia. rewrite X, IH. cbn [rev]. now rewrite <- app_assoc.
Qed.
Lemma value_through k q s : Forall (fun c => c <> q) s -> forall acc r, lex_attrs (AVal k q acc) (s ++ r) = lex_attrs (AVal k q (rev s ++ acc)) r.
Proof.
  induction 1 as [|x s X _ IH]; intros acc r; [reflexivity|]. cbn [app lex_attrs]. replace (x =? q) with false by lia. rewrite IH. cbn [rev]. now rewrite <- app_assoc.
Qed.
Lemma attrs_read a r : attrs_text a r -> lex_attrs ABefore r = Ok a.
Proof.
  induction 1 as [w W|w k w1 w2 q v s a r NE W K W1 W2 Q V R IH].
  - rewrite <- (app_nil_r w), (before_white w W). reflexivity.
  - rewrite (before_white w W). apply plain_word in K as (KN & K). destruct k as [|x k]; [congruence|]. inversion K as [|? ? X K']; subst. destruct X as (X & X1 & _).
    cbn [app lex_attrs]. rewrite X. change c_eq with 61. replace (x =? 61) with false by lia. rewrite (key_word k K').
    assert (E : lex_attrs (AKey (rev k ++ [x])) (w1 ++ 61 :: w2 ++ q :: s ++ q :: r) = lex_attrs (AQuote (x :: k)) (w2 ++ q :: s ++ q :: r)).
    { assert (N : rev (rev k ++ [x]) = x :: k) by (rewrite rev_app_distr, rev_involutive; reflexivity). destruct w1 as [|y w1]; cbn [app lex_attrs].
      - change (61 =? c_eq) with true. cbv iota. now rewrite N.
      - pose proof (white_ws _ y W1 (or_introl eq_refl)) as Y. assert (y =? c_eq = false) as -> by (change c_eq with 61; destruct (W1 y (or_introl eq_refl)); lia).
        rewrite Y, N, (after_white _ w1 (white_tail _ _ W1)). cbn [lex_attrs]. reflexivity. }
    change (lex_attrs (AKey (rev k ++ [x])) (w1 ++ [61] ++ w2 ++ [q] ++ s ++ [q] ++ r) = Ok ((x :: k, v) :: a)).
    cbn [app]. rewrite E, (quote_white _ w2 W2). cbn [lex_attrs]. replace (is_ws q) with false by (destruct Q as [-> | ->]; reflexivity).
    replace ((q =? c_quot) || (q =? c_apos))%bool with true by (destruct Q as [-> | ->]; reflexivity).
    rewrite (value_through _ _ _ (quoted_without _ _ _ Q V)), app_nil_r. cbn [lex_attrs]. rewrite N.eqb_refl, rev_involutive, (quoted_value _ _ _ V). cbn [bind]. now rewrite IH.
Qed.
(** Up to the end of the tag. *)
Definition mild (c : char) : Prop := c <> 62 /\ c <> 34 /\ c <> 39.
Lemma tag_mild x : Forall mild x -> forall acc b, lex (MTag acc None) (x ++ b) = lex (MTag (rev x ++ acc) None) b.
Proof.
  induction 1 as [|c x C _ IH]; intros acc b; [reflexivity|]. unfold mild in C. cbn [app lex]. change c_gt with 62. change c_quot with 34. change c_apos with 39.
  replace (c =? 62) with false by lia. replace (c =? 34) with false by lia. replace (c =? 39) with false by lia. cbn [orb]. rewrite IH. cbn [rev]. now rewrite <- app_assoc.
Qed.
Lemma tag_quoted q x : Forall (fun c => c <> q) x -> forall acc b, lex (MTag acc (Some q)) (x ++ b) = lex (MTag (rev x ++ acc) (Some q)) b.
Proof.
  induction 1 as [|c x C _ IH]; intros acc b; [reflexivity|]. cbn [app lex]. replace (c =? q) with false by lia. rewrite IH. cbn [rev]. now rewrite <- app_assoc.
Qed.
Lemma white_mild w : white w -> Forall mild w.
Proof. intros W. apply Forall_forall. intros c I. unfold mild. specialize (W c I). lia. Qed.
Lemma word_mild n : Forall word n -> Forall mild n.
Proof. apply Forall_impl. unfold word, mild. tauto. Qed.
Lemma tag_attrs a r : attrs_text a r -> forall acc b, lex (MTag acc None) (r ++ b) = lex (MTag (rev r ++ acc) None) b.
Proof.
  induction 1 as [w W|w k w1 w2 q v s a r NE W K W1 W2 Q V R IH]; intros acc b; [apply tag_mild, white_mild, W|].
  apply plain_word in K as (_ & K). rewrite <- !app_assoc. rewrite (tag_mild w (white_mild _ W)), (tag_mild k (word_mild _ K)), (tag_mild w1 (white_mild _ W1)).
  rewrite (tag_mild [61]) by (constructor; [unfold mild; lia|constructor]). rewrite (tag_mild w2 (white_mild _ W2)).
  assert (O : forall acc' z, lex (MTag acc' None) ([q] ++ z) = lex (MTag (q :: acc') (Some q)) z) by (intros; destruct Q as [-> | ->]; reflexivity).
  assert (P : forall acc' z, lex (MTag acc' (Some q)) ([q] ++ z) = lex (MTag (q :: acc') None) z) by (intros; cbn [app lex]; now rewrite N.eqb_refl).
  rewrite O, (tag_quoted q s (quoted_without _ _ _ Q V)), P, IH. f_equal. f_equal. rewrite !rev_app_distr. cbn [rev app]. now rewrite <- !app_assoc.
Qed.
Lemma attrs_start a r : attrs_text a r -> match r with [] => True | c :: _ => is_ws c = true end.
Proof.
  intros [w W|w k w1 w2 q v s a' r' NE W _ _ _ _ _ _].
  - destruct w as [|c w]; [exact I|]. apply (white_ws _ c W). now left.
  - destruct w as [|c w]; [congruence|]. cbn [app]. apply (white_ws _ c W). now left.
Qed.
Lemma last_app_not (n r : str) : n <> [] -> last r 0 <> 47 -> last n 0 <> 47 -> last (n ++ r) 0 <> 47.
Proof.
  intros NE R L. destruct r as [|c r] using rev_ind; [now rewrite app_nil_r|]. rewrite app_assoc, last_last. now rewrite last_last in R.
Qed.
Lemma attrs_last a r : attrs_text a r -> last r 0 <> 47.
Proof.
  induction 1 as [w W|w k w1 w2 q v s a r NE W K W1 W2 Q V R IH].
  - destruct w as [|c w] using rev_ind; [discriminate|]. rewrite last_last. assert (I : In c (w ++ [c])) by (apply in_or_app; right; now left). specialize (W c I). lia.
  - rewrite !app_assoc. apply last_app_not; [|exact IH|].
    + intros H. apply app_eq_nil in H as (_ & H). discriminate.
    + rewrite last_last. lia.
Qed.
Lemma word_last n : n <> [] -> Forall word n -> last n 0 <> 47.
Proof. intros NE F. destruct n as [|c n] using rev_ind; [congruence|]. rewrite last_last. apply Forall_app in F as (_ & F). inversion F as [|? ? X ?]; subst. unfold word in X. tauto. Qed.
Lemma span_word n r : Forall word n -> match r with [] => True | c :: _ => is_ws c = true end -> span (fun c => negb (is_ws c)) (n ++ r) = (n, r).
Proof.
  induction 1 as [|x n X _ IH]; intros R; cbn [app].
  - destruct r as [|c r]; [reflexivity|]. cbn [span]. now rewrite R.
  - cbn [span]. destruct X as (X & _). rewrite X. cbn [negb]. now rewrite (IH R).
Qed.
Lemma start_read n a r : plain_name n -> attrs_text a r -> parse_start (n ++ r) = Ok (n, a).
Proof. intros N R. apply plain_word in N as (_ & N). unfold parse_start. rewrite (span_word n r N (attrs_start _ _ R)), (attrs_read _ _ R). reflexivity. Qed.
Lemma tag_parse e x b : tag_text e x -> lex (XmlModel.MText []) (x ++ b) = (let* r := lex (XmlModel.MText []) b in Ok (e :: r)).
Proof.
  assert (G : forall m s e', parse_tag (rev m) = Ok e' -> lex (MTag m None) (62 :: s) = (let* r := lex (XmlModel.MText []) s in Ok (e' :: r))).
  { intros m s e' P. cbn [lex]. change (62 =? c_gt) with true. cbv iota. rewrite P. reflexivity. }
  assert (O : forall s, lex (XmlModel.MText []) (60 :: s) = lex (MTag [] None) s).
  { intros s. cbn [lex]. change (60 =? c_lt) with true. cbv iota. cbn [rev emit_text app]. destruct (lex (MTag [] None) s); reflexivity. }
  intros [n a r N R|n a r N R|n w N W]; rewrite <- !app_assoc; cbn [app]; rewrite O; pose proof (plain_word _ N) as (NE & F).
  - rewrite (tag_mild n (word_mild _ F)), (tag_attrs _ _ R). apply G. rewrite !rev_app_distr. cbn [rev app]. rewrite !rev_involutive.
    pose proof (start_read _ _ _ N R) as P. pose proof (last_app_not n r NE (attrs_last _ _ R) (word_last _ NE F)) as L. destruct n as [|c n]; [congruence|]. cbn [app] in *. unfold parse_tag.
    inversion F as [|? ? X ?]; subst. unfold word in X. change c_slash with 47. replace (c =? 47) with false by lia. replace (c =? 63) with false by lia. replace (c =? 33) with false by lia. cbn [orb].
    replace (last (c :: n ++ r) 0 =? 47) with false by lia. rewrite P. reflexivity.
  - rewrite (tag_mild n (word_mild _ F)), (tag_attrs _ _ R). change (47 :: 62 :: b) with ([47] ++ 62 :: b). rewrite tag_mild by (constructor; [unfold mild; lia|constructor]). apply G.
    rewrite !rev_app_distr. cbn [rev app]. rewrite !rev_involutive. pose proof (start_read _ _ _ N R) as P. destruct n as [|c n]; [congruence|]. cbn [app] in *. unfold parse_tag.
    inversion F as [|? ? X ?]; subst. unfold word in X. change c_slash with 47. replace (c =? 47) with false by lia. replace (c =? 63) with false by lia. replace (c =? 33) with false by lia. cbn [orb].
    rewrite <- !app_assoc. change (c :: n ++ r ++ [47]) with ((c :: n ++ r ++ [47])). replace (c :: n ++ r ++ [47]) with ((c :: n ++ r) ++ [47]) by (cbn [app]; now rewrite <- app_assoc).
    rewrite last_last, removelast_last, P. reflexivity.
  - change (47 :: n ++ w ++ 62 :: b) with ([47] ++ n ++ w ++ 62 :: b). rewrite tag_mild by (constructor; [unfold mild; lia|constructor]).
    rewrite (tag_mild n (word_mild _ F)), (tag_mild w (white_mild _ W)). apply G. rewrite !rev_app_distr. cbn [rev app]. rewrite !rev_involutive. cbn [parse_tag app]. change (47 =? c_slash) with true. cbv iota.
    rewrite (span_word n w F); [reflexivity|]. destruct w as [|c w]; [exact I|]. apply (white_ws _ c W). now left.
Qed.
