(** Lemmas about readers that pass over comments. *)
From Verif Require Import Base Lib NumModel XmlModel XmlSpec XmlProofs CellModel CellIoModel DrawModel HeaderModel TableModel CloneModel BookModel ScriptModel ValidModel StyleModel MetaModel ConfigModel WorkModel TermModel TermSpec TermProofs SkipSpec.

Definition lift {A} (x : res (A * list event)) : res (A * list event) :=
  match x with Ok (a, r) => Ok (a, plain r) | Err => Err | Panic => Panic end.
Lemma bind_lift {A B} (x : res (A * list event)) (k' k : A * list event -> res (B * list event)) :
  (forall a r, k' (a, plain r) = lift (k (a, r))) -> bind (lift x) k' = lift (bind x k).
Proof. intros H. destruct x as [(a & r)| |]; cbn; auto. Qed.
Lemma bind_lift_same {A B} (x : res A) (k' k : A -> res (B * list event)) :
  (forall a, k' a = lift (k a)) -> bind x k' = lift (bind x k).
Proof. intros H. destruct x as [a| |]; cbn; auto. Qed.
Lemma plain_aside t r : plain (EOther t :: r) = plain r. Proof. reflexivity. Qed.
Lemma plain_keep e r : aside e = false -> plain (e :: r) = e :: plain r. Proof. intros H. cbn. now rewrite H. Qed.
Lemma plain_app a b : plain (a ++ b) = plain a ++ plain b.
Proof. induction a as [|e a IH]; [reflexivity|]. cbn. destruct (aside e); cbn; now rewrite IH. Qed.
Lemma plain_sfx r evs : sfx r evs -> (length (plain r) <= length (plain evs))%nat.
Proof. intros (p & ->). rewrite plain_app, app_length. lia. Qed.

Definition blind {S} (step : S -> event -> list event -> res (S * list event)) : Prop :=
  (forall s t r, step s (EOther t) r = Ok (s, r)) /\ (forall s e r, aside e = false -> step s e (plain r) = lift (step s e r)).
Lemma reading_plain {S} stop (step : S -> event -> list event -> res (S * list event)) : blind step -> shrinks step ->
  forall n m s evs, (length evs <= n)%nat -> (length (plain evs) <= m)%nat -> reading m stop step s (plain evs) = lift (reading n stop step s evs).
Proof.
  intros (A & B) K. induction n as [|n IH]; intros m s evs L M.
  - destruct evs; [destruct m; reflexivity|cbn in L; lia].
  - destruct evs as [|e r]; [destruct m; reflexivity|]. cbn [length] in L. destruct (aside e) eqn:E.
    + destruct e; try discriminate. rewrite plain_aside in *. cbn [reading]. rewrite A. cbn [bind]. apply IH; [lia|exact M].
    + rewrite (plain_keep _ _ E) in *. cbn [length] in M. destruct m as [|m]; [lia|]. cbn [reading].
      destruct (match e, stop with EEnd t, Some q => str_eqb t q | _, _ => false end); [reflexivity|].
      rewrite (B s e r E). destruct (step s e r) as [(s' & r')| |] eqn:F; [|reflexivity|reflexivity]. cbn [lift bind]. pose proof (K _ _ _ _ _ F) as X.
      apply IH; [apply sfx_length in X; lia|apply plain_sfx in X; lia].
Qed.
Lemma reading_same {S} stop (step : S -> event -> list event -> res (S * list event)) : blind step -> shrinks step ->
  forall s evs, reading (length (plain evs)) stop step s (plain evs) = lift (reading (length evs) stop step s evs).
Proof. intros. apply reading_plain; auto. Qed.

(** ** Trees and text *)

Lemma xml_loop_plain super evs : forall st, read_xml_loop super st (plain evs) = lift (read_xml_loop super st evs).
Proof.
  induction evs as [|e evs IH]; intros st; [destruct st; reflexivity|]. destruct (aside e) eqn:E.
  - destruct e; try discriminate. cbn [plain aside read_xml_loop]. apply IH.
  - rewrite (plain_keep _ _ E). destruct e; try discriminate; cbn [read_xml_loop].
    + apply IH.
    + apply bind_lift_same. intros s2. apply IH.
    + destruct (str_eqb n super); [destruct st; reflexivity|]. destruct st; [reflexivity|]. apply bind_lift_same. intros s2. apply IH.
    + apply bind_lift_same. intros s2. apply IH.
    + apply bind_lift_same. intros v. apply bind_lift_same. intros s2. apply IH.
Qed.
Lemma xml_plain n a b evs : read_xml n a b (plain evs) = lift (read_xml n a b evs).
Proof. unfold read_xml. destruct b; [reflexivity|apply xml_loop_plain]. Qed.
Lemma para_other super a pc st t : para_step super a pc st (EOther t) = Ok (inl (pc, st)). Proof. reflexivity. Qed.
Lemma para_plain super a evs : forall pc st, para_loop super a pc st (plain evs) = lift (para_loop super a pc st evs).
Proof.
  induction evs as [|e evs IH]; intros pc st; [reflexivity|]. destruct (aside e) eqn:E.
  - destruct e; try discriminate. cbn [plain aside para_loop]. rewrite para_other. cbn [bind]. apply IH.
  - rewrite (plain_keep _ _ E). cbn [para_loop]. apply bind_lift_same. intros [(pc' & st')|t']; [apply IH|reflexivity].
Qed.
Lemma text_plain n a b evs : read_text_or_tag n a b (plain evs) = lift (read_text_or_tag n a b evs).
Proof. unfold read_text_or_tag. destruct b; [reflexivity|apply para_plain]. Qed.
Lemma message_plain {T} (ty : option (str -> res T)) m0 tag a b evs : read_message ty m0 tag a b (plain evs) = lift (read_message ty m0 tag a b evs).
Proof.
  unfold read_message. apply bind_lift_same. intros m. rewrite text_plain. apply bind_lift. intros t r. destruct t; reflexivity.
Qed.
Lemma valids_plain n : forall m evs v bk, (length evs <= n)%nat -> (length (plain evs) <= m)%nat -> read_valids m (plain evs) v bk = lift (read_valids n evs v bk).
Proof.
  induction n as [|n IH]; intros m evs v bk L M.
  - destruct evs; [destruct m; reflexivity|cbn in L; lia].
  - destruct evs as [|e r]; [destruct m; reflexivity|]. cbn [length] in L. destruct (aside e) eqn:E.
    + destruct e; try discriminate. rewrite plain_aside in *. cbn [read_valids]. apply IH; [lia|exact M].
    + rewrite (plain_keep _ _ E) in *. cbn [length] in M. destruct m as [|m]; [lia|].
      assert (R : forall v' bk', read_valids m (plain r) v' bk' = lift (read_valids n r v' bk')) by (intros; apply IH; lia).
      assert (Q : forall T (ty : option (str -> res T)) m0 t a b (k : message T -> validation),
        (let* (x, r') := read_message ty m0 t a b (plain r) in read_valids m r' (k x) bk) = lift (let* (x, r') := read_message ty m0 t a b r in read_valids n r' (k x) bk)).
      { intros T ty m0 t a b k. rewrite message_plain. destruct (read_message ty m0 t a b r) as [(x & r')| |] eqn:F; [|reflexivity|reflexivity].
        apply message_sfx in F. cbn [lift bind]. apply IH; [apply sfx_length in F; lia|apply plain_sfx in F; lia]. }
      destruct e; try discriminate; cbn [read_valids].
      * destruct (str_eqb n0 t_valid); [apply bind_lift_same; intros w; apply bind_lift_same; intros (b1 & n1); apply R|].
        destruct (str_eqb n0 t_err); [apply Q|]. destruct (str_eqb n0 t_help); [apply Q|]. apply R.
      * destruct (str_eqb n0 t_err); [apply Q|]. destruct (str_eqb n0 t_help); [apply Q|]. apply R.
      * destruct (str_eqb n0 t_valid); [apply bind_lift_same; intros (b1 & n1); apply R|]. destruct (str_eqb n0 t_valids); [reflexivity|]. apply R.
      * apply R.
      * apply R.
Qed.

(** ** Styles *)

Ltac by_parts := repeat match goal with
  | |- (let (_, _) := ?p in _) = lift _ => destruct p
  | |- (if ?b then _ else _) = lift _ => destruct b
  | |- match ?o with Some _ => _ | None => _ end = lift _ => destruct o
  | |- (let* _ := ?x in _) = lift (let* _ := ?x in _) => apply bind_lift_same; intro
  | |- Ok _ = lift (Ok _) => reflexivity
  | |- Err = lift Err => reflexivity
  | p : (_ * _)%type |- _ => destruct p
  end; try reflexivity.
Lemma font_blind : blind font_step.
Proof. split; [reflexivity|]. intros s e r _. unfold font_step. destruct (on_tag e) as [((n & a) & b)|]; by_parts. Qed.
Lemma fonts_plain o b evs : read_fonts o b (plain evs) = lift (read_fonts o b evs).
Proof. unfold read_fonts. rewrite (reading_same _ _ font_blind font_shrinks). apply bind_lift. reflexivity. Qed.
Lemma style_blind f : blind (style_step f).
Proof. split; [reflexivity|]. intros s e r _. unfold style_step. destruct (on_tag e) as [((n & a) & b)|]; [|reflexivity]. destruct f; by_parts. Qed.
Lemma style_plain f o u tag a b bk evs : read_style f o u tag a b bk (plain evs) = lift (read_style f o u tag a b bk evs).
Proof.
  unfold read_style. destruct (copy_style_attr a) as (nm & at'). destruct b; [apply bind_lift_same; reflexivity|].
  rewrite (reading_same _ _ (style_blind f) (style_shrinks f)). apply bind_lift. intros p r. destruct (fst p); [apply bind_lift_same; reflexivity|reflexivity].
Qed.
Lemma style_style_plain todo : forall o u tag a b bk evs, read_style_style todo o u tag a b bk (plain evs) = lift (read_style_style todo o u tag a b bk evs).
Proof.
  induction todo as [|(k & v) todo IH]; intros o u tag a b bk evs; cbn [read_style_style]; [reflexivity|]. destruct (str_eqb k k_family); [|apply IH].
  destruct (family_of (raw v)); [|reflexivity]. rewrite style_plain. apply bind_lift. intros. apply IH.
Qed.
Lemma part_blind ty : blind (match ty with PTextPart | PCurrency | PFill => text_step | PNumber => number_step | _ => skip_step end).
Proof. destruct ty; (split; [reflexivity|]); intros s e r _; try reflexivity; destruct e; cbn [text_step number_step]; by_parts. Qed.
Lemma part_plain ty tag a b evs : read_part ty tag a b (plain evs) = lift (read_part ty tag a b evs).
Proof. unfold read_part. destruct b; [reflexivity|]. rewrite (reading_same _ _ (part_blind ty) (part_shrinks ty)). apply bind_lift. reflexivity. Qed.
Lemma format_blind : blind format_step.
Proof.
  split; [reflexivity|]. intros s e r _. unfold format_step. destruct (on_tag e) as [((n & a) & b)|]; [|reflexivity]. destruct (part_of n).
  - rewrite part_plain. apply bind_lift. reflexivity.
  - destruct s. by_parts.
Qed.
Lemma format_plain f o u tag a bk evs : read_format f o u tag a bk (plain evs) = lift (read_format f o u tag a bk evs).
Proof.
  unfold read_format. destruct (copy_style_attr a). rewrite (reading_same _ _ format_blind format_shrinks). apply bind_lift. intros p r. apply bind_lift_same. reflexivity.
Qed.
Lemma page_blind : blind page_step.
Proof. split; [intros (([us p h f] & hd) & ft) t r; reflexivity|]. intros (([us p h f] & hd) & ft) e r _. unfold page_step. destruct e; by_parts. Qed.
Lemma page_plain a bk evs : read_page a bk (plain evs) = lift (read_page a bk evs).
Proof.
  unfold read_page. destruct (fold_left page_attr a _). rewrite (reading_same _ _ page_blind page_shrinks). apply bind_lift. intros q r. apply bind_lift_same. reflexivity.
Qed.
Lemma hf_blind : blind hf_step.
Proof.
  split; [reflexivity|]. intros s e r _. unfold hf_step. destruct (on_tag e) as [((n & a) & b)|]; [|reflexivity]. destruct s as ([d le ce ri co] & tc).
  destruct (str_eqb n t_left); [rewrite xml_plain; apply bind_lift; intros x r'; apply bind_lift_same; reflexivity|].
  destruct (str_eqb n t_center); [rewrite xml_plain; apply bind_lift; intros x r'; apply bind_lift_same; reflexivity|].
  destruct (str_eqb n t_right); [rewrite xml_plain; apply bind_lift; intros x r'; apply bind_lift_same; reflexivity|].
  destruct (str_eqb n t_p || str_eqb n t_h); [rewrite text_plain; apply bind_lift; reflexivity|reflexivity].
Qed.
Lemma hf_plain tag a evs : read_hf tag a (plain evs) = lift (read_hf tag a evs).
Proof.
  unfold read_hf. apply bind_lift_same. intros h. rewrite (reading_same _ _ hf_blind hf_shrinks). apply bind_lift. intros p r. destruct (snd p) as ([d le ce ri co] & tc). reflexivity.
Qed.
Lemma master_blind : blind master_step.
Proof. split; [reflexivity|]. intros s e r _. unfold master_step. destruct e; try reflexivity. destruct (hslot_of n); [|reflexivity]. rewrite hf_plain. apply bind_lift. reflexivity. Qed.
Lemma master_plain a bk evs : read_master a bk (plain evs) = lift (read_master a bk evs).
Proof.
  unfold read_master. destruct (fold_left master_attr a _). rewrite (reading_same _ _ master_blind master_shrinks). apply bind_lift. intros q r. apply bind_lift_same. reflexivity.
Qed.
Lemma styles_blind o : blind (styles_step o).
Proof.
  split; [reflexivity|]. intros s e r _. unfold styles_step. destruct (on_tag e) as [((n & a) & b)|]; [|reflexivity].
  destruct (str_eqb n t_style); [apply style_style_plain|]. destruct (str_eqb n t_default); [apply style_style_plain|]. destruct (format_of n); [apply format_plain|reflexivity].
Qed.
Lemma automatic_blind o : blind (automatic_step o).
Proof.
  split; [reflexivity|]. intros s e r _. unfold automatic_step. destruct (on_tag e) as [((n & a) & b)|]; [|reflexivity].
  destruct (str_eqb n t_style); [apply style_style_plain|]. destruct (str_eqb n t_page); [apply page_plain|]. destruct (format_of n); [apply format_plain|reflexivity].
Qed.
Lemma masters_blind : blind masters_step.
Proof. split; [reflexivity|]. intros s e r _. unfold masters_step. destruct (on_tag e) as [((n & a) & b)|]; [|reflexivity]. destruct (str_eqb n t_master); [apply master_plain|reflexivity]. Qed.
Lemma doc_blind o : blind (doc_step o).
Proof.
  split; [reflexivity|]. intros s e r _. unfold doc_step. destruct e; try reflexivity. destruct (str_eqb n t_fonts); [apply fonts_plain|].
  destruct (str_eqb n t_office_styles); [rewrite (reading_same _ _ (styles_blind o) (styles_shrinks o)); apply bind_lift; reflexivity|].
  destruct (str_eqb n t_automatic); [rewrite (reading_same _ _ (automatic_blind o) (automatic_shrinks o)); apply bind_lift; reflexivity|].
  destruct (str_eqb n t_masters); [rewrite (reading_same _ _ masters_blind masters_shrinks); apply bind_lift; reflexivity|reflexivity].
Qed.
Lemma scripts_blind : blind scripts_step.
Proof.
  split; [reflexivity|]. intros s e r _. unfold scripts_step. destruct (on_tag e) as [((n & a) & b)|]; [|reflexivity].
  destruct (str_eqb n t_script); [rewrite xml_plain; apply bind_lift; reflexivity|]. by_parts.
Qed.

(** ** Tables *)

Lemma tree_other n st t : tree_step n st (EOther t) = Ok (inl st). Proof. reflexivity. Qed.
Lemma rtext_other n st t : rtext_step n st (EOther t) = Ok (inl st). Proof. reflexivity. Qed.
Lemma sub_other m t : sub_step m (EOther t) = Ok (inl m). Proof. destruct m; reflexivity. Qed.
Lemma cell_other tag s m t : cell_step tag s m (EOther t) = Ok (inl (s, m)).
Proof. destruct m; [reflexivity|reflexivity|]. cbn [cell_step]. now rewrite sub_other. Qed.
Lemma table_other ign s m t : table_step ign s m (EOther t) = Ok (inl (s, m)).
Proof. destruct m; [reflexivity| |reflexivity]. cbn [table_step]. now rewrite cell_other. Qed.
Lemma table_loop_plain ign evs : forall s m, table_loop ign s m (plain evs) = lift (table_loop ign s m evs).
Proof.
  induction evs as [|e evs IH]; intros s m; [reflexivity|]. destruct (aside e) eqn:E.
  - destruct e; try discriminate. cbn [plain aside table_loop]. rewrite table_other. cbn [bind]. apply IH.
  - rewrite (plain_keep _ _ E). cbn [table_loop]. apply bind_lift_same. intros [(s' & m')|s']; [apply IH|reflexivity].
Qed.
Lemma table_plain ign e evs : read_table ign (e :: plain evs) = lift (read_table ign (e :: evs)).
Proof. unfold read_table. destruct e; try reflexivity. apply bind_lift_same. intros sh. rewrite table_loop_plain. apply bind_lift. reflexivity. Qed.
Lemma body_blind ign : blind (body_step ign).
Proof.
  split; [reflexivity|]. intros s e r _. unfold body_step. destruct (on_tag e) as [((n & a) & b)|]; [|reflexivity].
  destruct (negb b && str_eqb n t_valids); [rewrite (valids_plain (length r)) by auto; apply bind_lift; reflexivity|].
  destruct (negb b && str_eqb n t_table); [rewrite table_plain; apply bind_lift; reflexivity|].
  destruct (existsb (str_eqb n) _); [rewrite xml_plain; apply bind_lift; reflexivity|reflexivity].
Qed.
Lemma body_plain ign w evs : read_office_body ign w (plain evs) = lift (read_office_body ign w evs).
Proof. unfold read_office_body. rewrite (reading_same _ _ (body_blind ign) (body_shrinks ign)). apply bind_lift. reflexivity. Qed.

(** ** Files *)

Lemma mstep_other t s : mstep (EOther t) s = Ok s. Proof. destruct s; reflexivity. Qed.
Lemma meta_plain evs : forall s, match s with MOutside _ => False | _ => True end -> meta_loop s (plain evs) = lift (meta_loop s evs).
Proof.
  induction evs as [|e evs IH]; intros s K; [reflexivity|]. destruct (aside e) eqn:E.
  - destruct e; try discriminate. cbn [plain aside meta_loop]. rewrite mstep_other. cbn [bind]. destruct s; [contradiction|apply IH; exact I..].
  - rewrite (plain_keep _ _ E). cbn [meta_loop]. apply bind_lift_same. intros s'. destruct s'; [reflexivity|apply IH; exact I..].
Qed.
Lemma cstep_other t s : cstep (EOther t) s = Ok s. Proof. destruct s as [c|c [p|] st]; reflexivity. Qed.
Lemma config_plain evs : forall s, match s with COutside _ => False | _ => True end -> config_loop s (plain evs) = lift (config_loop s evs).
Proof.
  induction evs as [|e evs IH]; intros s K; [reflexivity|]. destruct (aside e) eqn:E.
  - destruct e; try discriminate. cbn [plain aside config_loop]. rewrite cstep_other. cbn [bind]. destruct s; [contradiction|apply IH; exact I].
  - rewrite (plain_keep _ _ E). cbn [config_loop]. apply bind_lift_same. intros s'. destruct s'; [reflexivity|apply IH; exact I].
Qed.
Lemma scripts_plain s r : reading (length (plain r)) (Some t_scripts) scripts_step s (plain r) = lift (reading (length r) (Some t_scripts) scripts_step s r).
Proof. apply (reading_same _ _ scripts_blind scripts_shrinks). Qed.
Lemma content_blind ign : blind (content_step ign).
Proof.
  split; [reflexivity|]. intros s e r E. unfold content_step. destruct e; try reflexivity. destruct (str_eqb n (lit "office:document-content")); [apply bind_lift_same; reflexivity|].
  destruct (str_eqb n t_scripts); [rewrite scripts_plain; apply bind_lift; reflexivity|].
  destruct (existsb (str_eqb n) style_sections); [rewrite (proj2 (doc_blind OContent)) by exact E; apply bind_lift; reflexivity|].
  destruct (str_eqb n t_body); [apply body_plain|reflexivity].
Qed.
Lemma fods_blind ign : blind (fods_step ign).
Proof.
  split; [reflexivity|]. intros s e r E. unfold fods_step. destruct e; try reflexivity. destruct (str_eqb n (lit "office:document")); [apply bind_lift_same; reflexivity|].
  destruct (str_eqb n t_meta); [rewrite meta_plain by exact I; apply bind_lift; reflexivity|].
  destruct (str_eqb n t_settings); [rewrite config_plain by exact I; apply bind_lift; reflexivity|].
  destruct (str_eqb n t_scripts); [rewrite scripts_plain; apply bind_lift; reflexivity|].
  destruct (existsb (str_eqb n) style_sections); [rewrite (proj2 (doc_blind OContent)) by exact E; apply bind_lift; reflexivity|].
  destruct (str_eqb n t_body); [apply body_plain|reflexivity].
Qed.
Lemma fods_only_blind ign : blind (fods_only_step ign).
Proof. split; [reflexivity|]. intros s e r E. unfold fods_only_step. destruct e; try reflexivity. destruct (str_eqb n t_body); [apply body_plain|reflexivity]. Qed.
Lemma styles_file_blind : blind styles_file_step.
Proof.
  split; [reflexivity|]. intros s e r E. unfold styles_file_step. destruct e; try reflexivity. destruct (str_eqb n (lit "office:document-styles")); [apply bind_lift_same; reflexivity|].
  destruct (existsb (str_eqb n) style_sections); [rewrite (proj2 (doc_blind OStyles)) by exact E; apply bind_lift; reflexivity|reflexivity].
Qed.
Lemma meta_file_blind : blind meta_file_step.
Proof.
  split; [reflexivity|]. intros s e r E. unfold meta_file_step. destruct e; try reflexivity. destruct (str_eqb n (lit "office:document-meta")); [apply bind_lift_same; reflexivity|].
  destruct (str_eqb n t_meta); [rewrite meta_plain by exact I; apply bind_lift; reflexivity|reflexivity].
Qed.
Lemma settings_file_blind : blind settings_file_step.
Proof.
  split; [reflexivity|]. intros s e r E. unfold settings_file_step. destruct e; try reflexivity. destruct (str_eqb n (lit "office:document-settings")); [apply bind_lift_same; reflexivity|].
  destruct (str_eqb n t_settings); [rewrite config_plain by exact I; apply bind_lift; reflexivity|reflexivity].
Qed.
Lemma styles_file_shrinks : shrinks styles_file_step.
Proof.
  intros s e r s' r' H. unfold styles_file_step in H. destruct e; try (same_rest; apply sfx_refl). destruct (str_eqb n (lit "office:document-styles")); [same_rest; apply sfx_refl|].
  destruct (existsb (str_eqb n) style_sections); [apply bind_ok in H as ((p & r2) & E & H); injection H as <- <-; eapply doc_shrinks, E|same_rest; apply sfx_refl].
Qed.
Lemma meta_file_shrinks : shrinks meta_file_step.
Proof.
  intros s e r s' r' H. unfold meta_file_step in H. destruct e; try (same_rest; apply sfx_refl). destruct (str_eqb n (lit "office:document-meta")); [same_rest; apply sfx_refl|].
  destruct (str_eqb n t_meta); [apply bind_ok in H as ((p & r2) & E & H); injection H as <- <-; eapply meta_loop_sfx, E|same_rest; apply sfx_refl].
Qed.
Lemma settings_file_shrinks : shrinks settings_file_step.
Proof.
  intros s e r s' r' H. unfold settings_file_step in H. destruct e; try (same_rest; apply sfx_refl). destruct (str_eqb n (lit "office:document-settings")); [same_rest; apply sfx_refl|].
  destruct (str_eqb n t_settings); [apply bind_ok in H as ((p & r2) & E & H); injection H as <- <-; eapply config_loop_sfx, E|same_rest; apply sfx_refl].
Qed.
Lemma file_alike step w t t' : blind step -> shrinks step -> alike t t' -> read_file step w t = read_file step w t'.
Proof.
  intros B K (evs & evs' & A & A' & P). unfold read_file. rewrite A, A'. cbn [bind].
  assert (Q : forall l, (let* (p, _) := reading (length l) None step w l in Ok (snd p)) = (let* (p, _) := reading (length (plain l)) None step w (plain l) in Ok (snd p))).
  { intros l. rewrite (reading_same None step B K). destruct (reading (length l) None step w l) as [(p & r)| |]; reflexivity. }
  rewrite (Q evs), (Q evs'), P. reflexivity.
Qed.

(** ** A comment in a file *)

Lemma lex_quiet c : quiet c = true -> forall acc b,
  lex (MTag acc None) (c ++ c_gt :: b) = (let* e := parse_tag (rev acc ++ c) in let* r := lex (XmlModel.MText []) b in Ok (e :: r)).
Proof.
  induction c as [|x c IH]; intros Q acc b.
  - cbn [app lex]. change (c_gt =? c_gt) with true. cbv iota. now rewrite app_nil_r.
  - unfold quiet in Q. cbn [forallb] in Q. apply andb_true_iff in Q as (A & Q). apply negb_true_iff in A. apply orb_false_iff in A as (A & A3). apply orb_false_iff in A as (A1 & A2).
    cbn [app lex]. rewrite A1, A2, A3. cbn [orb]. rewrite (IH Q (x :: acc) b). cbn [rev]. now rewrite <- app_assoc.
Qed.
Lemma quiet_app a b : quiet (a ++ b) = quiet a && quiet b. Proof. apply forallb_app. Qed.
(** Something in pointed brackets that is no tag. *)
Lemma lex_other x c b : quiet (x :: c) = true -> (x = 33 \/ x = 63) ->
  lex (XmlModel.MText []) (c_lt :: x :: c ++ c_gt :: b) = (let* r := lex (XmlModel.MText []) b in Ok (EOther (x :: c) :: r)).
Proof.
  intros Q X. change (c_lt :: x :: c ++ c_gt :: b) with (c_lt :: (x :: c) ++ c_gt :: b).
  cbn [lex]. change (c_lt =? c_lt) with true. cbv iota. rewrite (lex_quiet (x :: c) Q [] b). cbn [rev app].
  assert (P : parse_tag (x :: c) = Ok (EOther (x :: c))) by (destruct X as [-> | ->]; reflexivity).
  rewrite P. cbn [bind]. destruct (lex (XmlModel.MText []) b); reflexivity.
Qed.
Lemma lex_cut a : forall m ea b, lex m a = Ok ea -> match b with [] => True | c :: _ => c = c_lt \/ c = c_amp end ->
  lex m (a ++ b) = (let* r := lex (XmlModel.MText []) b in Ok (ea ++ r)).
Proof.
  induction a as [|x a IH]; intros m ea b L B.
  - destruct m; try discriminate L. cbn [lex] in L. injection L as <-. cbn [app]. destruct b as [|c b]; [cbn [lex bind rev emit_text]; now rewrite app_nil_r|].
    cbn [lex]. destruct B as [-> | ->].
    + change (c_lt =? c_lt) with true. cbv iota. destruct (lex (MTag [] None) b); reflexivity.
    + change (c_amp =? c_lt) with false. change (c_amp =? c_amp) with true. cbv iota. destruct (lex (MRef []) b); reflexivity.
  - cbn [app lex] in *. destruct m as [acc|acc|acc q].
    + destruct (x =? c_lt); [|destruct (x =? c_amp)].
      * apply bind_ok in L as (r & E & L). injection L as <-. rewrite (IH _ _ b E B). destruct (lex (XmlModel.MText []) b); cbn [bind]; [now rewrite app_assoc|reflexivity|reflexivity].
      * apply bind_ok in L as (r & E & L). injection L as <-. rewrite (IH _ _ b E B). destruct (lex (XmlModel.MText []) b); cbn [bind]; [now rewrite app_assoc|reflexivity|reflexivity].
      * now apply IH.
    + destruct (x =? c_semi); [|destruct ((x =? c_lt) || (x =? c_amp)); [discriminate|now apply IH]].
      apply bind_ok in L as (r & E & L). injection L as <-. rewrite (IH _ _ b E B). destruct (lex (XmlModel.MText []) b); reflexivity.
    + destruct q as [qc|]; [now apply IH|]. destruct (x =? c_gt); [|destruct ((x =? c_quot) || (x =? c_apos)); now apply IH].
      apply bind_ok in L as (e & P & L). apply bind_ok in L as (r & E & L). injection L as <-. rewrite P. cbn [bind]. rewrite (IH _ _ b E B). destruct (lex (XmlModel.MText []) b); reflexivity.
Qed.
Definition no_text_last (ea : list event) : Prop := match rev ea with EText _ :: _ => False | _ => True end.
Lemma last_tail x r : no_text_last (x ++ r) -> no_text_last r.
Proof. unfold no_text_last. rewrite rev_app_distr. destruct (rev r) as [|e l]; [trivial|]. cbn [app]. auto. Qed.
Lemma lex_cut_tag a : forall m ea b, lex m a = Ok ea -> no_text_last ea -> lex m (a ++ b) = (let* r := lex (XmlModel.MText []) b in Ok (ea ++ r)).
Proof.
  induction a as [|x a IH]; intros m ea b L B.
  - destruct m as [acc|acc|acc q]; try discriminate L. cbn [lex] in L. injection L as <-. destruct acc as [|y acc].
    + cbn [app rev emit_text]. destruct (lex (XmlModel.MText []) b); reflexivity.
    + exfalso. unfold no_text_last, emit_text in B. cbn [rev] in B. destruct (rev acc ++ [y]) eqn:E; [now destruct (rev acc)|]. exact B.
  - cbn [app lex] in *. destruct m as [acc|acc|acc q].
    + destruct (x =? c_lt); [|destruct (x =? c_amp)].
      * apply bind_ok in L as (r & E & L). injection L as <-. rewrite (IH _ _ b E (last_tail _ _ B)). destruct (lex (XmlModel.MText []) b); cbn [bind]; [now rewrite app_assoc|reflexivity|reflexivity].
      * apply bind_ok in L as (r & E & L). injection L as <-. rewrite (IH _ _ b E (last_tail _ _ B)). destruct (lex (XmlModel.MText []) b); cbn [bind]; [now rewrite app_assoc|reflexivity|reflexivity].
      * now apply IH.
    + destruct (x =? c_semi); [|destruct ((x =? c_lt) || (x =? c_amp)); [discriminate|now apply IH]].
      apply bind_ok in L as (r & E & L). injection L as <-. rewrite (IH _ _ b E (last_tail [_] _ B)). destruct (lex (XmlModel.MText []) b); reflexivity.
    + destruct q as [qc|]; [now apply IH|]. destruct (x =? c_gt); [|destruct ((x =? c_quot) || (x =? c_apos)); now apply IH].
      apply bind_ok in L as (e & P & L). apply bind_ok in L as (r & E & L). injection L as <-. rewrite P. cbn [bind]. rewrite (IH _ _ b E (last_tail [_] _ B)). destruct (lex (XmlModel.MText []) b); reflexivity.
Qed.
Lemma between_cut a b : between a b -> exists ea, lex (XmlModel.MText []) a = Ok ea /\ lex (XmlModel.MText []) (a ++ b) = (let* r := lex (XmlModel.MText []) b in Ok (ea ++ r)).
Proof.
  intros (ea & L & [[-> |(e & l & -> & E)]|B]); exists (match lex (XmlModel.MText []) a with Ok x => x | _ => [] end); rewrite L; (split; [reflexivity|]).
  - apply (lex_cut_tag _ _ _ _ L). exact I.
  - apply (lex_cut_tag _ _ _ _ L). unfold no_text_last. rewrite rev_app_distr. cbn [rev app]. destruct e; try exact I. contradiction.
  - now apply lex_cut.
Qed.
Lemma nested_plain evs : forall st, nested st (plain evs) = nested st evs.
Proof.
  induction evs as [|e evs IH]; intros st; [reflexivity|]. destruct e; cbn [plain aside nested]; auto. destruct st; [reflexivity|]. now rewrite IH.
Qed.
Lemma put_other a x c b : between a b -> quiet (x :: c) = true -> (x = 33 \/ x = 63) -> forall evs, read_events (a ++ b) = Ok evs -> alike (a ++ c_lt :: x :: c ++ c_gt :: b) (a ++ b).
Proof.
  intros B Q X evs R. pose proof R as R0. unfold read_events in R. apply bind_ok in R as (l & L & R). destruct (nested [] l) eqn:N; [|discriminate]. injection R as ->.
  destruct (between_cut a b B) as (ea & A & C). rewrite C in L. apply bind_ok in L as (r & E & L). injection L as <-.
  exists (ea ++ EOther (x :: c) :: r), (ea ++ r).
  assert (P : plain (ea ++ EOther (x :: c) :: r) = plain (ea ++ r)) by now rewrite !plain_app.
  split; [|split; [exact R0|exact P]].
  unfold read_events. rewrite (lex_cut a _ ea (c_lt :: x :: c ++ c_gt :: b) A (or_introl eq_refl)), (lex_other x c b Q X), E. cbn [bind].
  rewrite <- nested_plain, P, nested_plain, N. reflexivity.
Qed.
