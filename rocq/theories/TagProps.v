(** C65: builders for rich text. *)
From Verif Require Import Base Lib NumModel XmlModel XmlSpec XmlProofs CellModel NumSpec NumProofs CellIoModel CellIoSpec CellIoProofs StyleModel FmtModel FmtSpec FmtProofs DrawModel TreeProofs DrawProofs RichProofs CellIoProps DrawProps RichProps TagModel.

(** ** Specification: ODF 1.3 as the comments of text.rs and text_checklist.txt quote it *)

(** The attributes of each element (text.rs:36-48, 113-122, 164-165, 202-210, 245; text:tab-ref of <text:tab> in ODF 19.875). *)
Definition odf_attrs (e : str) : list str :=
  if str_eqb e (lit "text:h") then [lit "text:class-names"; lit "text:cond-style-name"; lit "text:id"; lit "text:is-list-header"; lit "text:outline-level"; lit "text:restart-numbering";
    lit "text:start-value"; lit "text:style-name"; lit "xml:id"]
  else if str_eqb e (lit "text:p") then [lit "text:class-names"; lit "text:cond-style-name"; lit "text:id"; lit "text:style-name"; lit "xml:id"]
  else if str_eqb e (lit "text:span") then [lit "text:class-names"; lit "text:style-name"]
  else if str_eqb e (lit "text:a") then [lit "text:style-name"; lit "text:visited-style-name"; lit "xlink:href"]
  else if str_eqb e (lit "text:s") then [lit "text:c"]
  else if str_eqb e (lit "text:tab") then [lit "text:tab-ref"]
  else [].
(** The elements marked as handled in text_checklist.txt. *)
Definition checklist : list str :=
  map lit ["text:a"; "text:author-initials"; "text:author-name"; "text:character-count"; "text:creation-date"; "text:creation-time"; "text:creator"; "text:date"; "text:description";
    "text:editing-cycles"; "text:editing-duration"; "text:file-name"; "text:initial-creator"; "text:keywords"; "text:modification-date"; "text:modification-time"; "text:page-count";
    "text:page-number"; "text:print-date"; "text:print-time"; "text:printed-by"; "text:s"; "text:sheet-name"; "text:soft-page-break"; "text:span"; "text:subject"; "text:tab"; "text:time"; "text:title"]%string.
(** The attribute a method is named for, and the text of its argument. *)
Definition named_for (m : method) : str :=
  match m with
  | ClassNames _ => lit "text:class-names" | CondstyleName _ => lit "text:cond-style-name" | Id _ => lit "text:id" | ListHeader _ => lit "text:is-list-header"
  | OutlineLevel _ => lit "text:outline-level" | RestartNumbering _ => lit "text:restart-numbering" | StartValue _ => lit "text:start-value" | StyleName _ => lit "text:style-name"
  | XmlId _ => lit "xml:id" | VisitedStyleName _ => lit "text:visited-style-name" | Href _ => lit "xlink:href" | Count _ => lit "text:c" | TabRef _ => lit "text:tab-ref"
  end.
Definition argument (m : method) (t : str) : Prop :=
  match m with
  | ClassNames l => t = concat (map (fun n => n ++ [32]) l)
  | CondstyleName n | Id n | StyleName n | XmlId n | VisitedStyleName n | Href n => t = n
  | ListHeader b | RestartNumbering b => t = if b then lit "true" else lit "false"
  | OutlineLevel n | StartValue n | Count n | TabRef n => shortest t n
  end.
Definition misspelt (m : method) : Prop := match m with CondstyleName _ | OutlineLevel _ => True | _ => False end.
(** What the calls added, in their order. *)
Inductive adds : list step -> list xnode -> Prop :=
| adds_nil : adds [] []
| adds_text s l c : adds l c -> adds (AddText s :: l) (XText s :: c)
| adds_tag x l c : adds l c -> adds (AddTag x :: l) (x :: c)
| adds_call m l c : adds l c -> adds (Call m :: l) c.
Definition fits (k : kind) (s : step) : Prop := match s with Call m => has k m = true | _ => True end.

(** ** Proofs *)

Lemma run_name l : forall t, tg_name (fold_left run_step l t) = tg_name t.
Proof. induction l as [|s l IH]; intros t; [reflexivity|]. cbn [fold_left]. rewrite IH. destruct s; reflexivity. Qed.
Lemma run_content l c : adds l c -> forall t, tg_content (fold_left run_step l t) = tg_content t ++ c.
Proof. induction 1; intros t; cbn [fold_left]; rewrite ?IHadds; cbn [run_step xml_add_text xml_add_tag xml_set_attr tg_content]; rewrite ?app_nil_r, <- ?app_assoc; reflexivity. Qed.
Lemma adds_all l : exists c, adds l c.
Proof. induction l as [|s l (c & IH)]; [exists []; constructor|]. destruct s; eexists; constructor; exact IH. Qed.
Lemma run_keys l : forall t, NoDup (map fst (tg_attrs t)) -> NoDup (map fst (tg_attrs (fold_left run_step l t))).
Proof. induction l as [|s l IH]; intros t H; [exact H|]. cbn [fold_left]. apply IH. destruct s; cbn [run_step xml_set_attr xml_add_text xml_add_tag tg_attrs]; try exact H. apply put_keys. exact H. Qed.
Definition own_name (k : kind) (m : method) : bool := if has k m then existsb (str_eqb (named_for m)) (odf_attrs (tag_name k)) else true.
Lemma str_in x l : existsb (str_eqb x) l = true <-> In x l.
Proof.
  rewrite existsb_exists. split; [intros (y & I & E); apply str_eqb_eq in E; subst; exact I|intros I; exists x; split; [exact I|apply str_eqb_refl]].
Qed.
Lemma sets_spec m : ~ misspelt m -> fst (sets m) = named_for m.
Proof. destruct m; cbn; intros H; try reflexivity; destruct (H Logic.I). Qed.
Lemma argument_spec m : argument m (snd (sets m)).
Proof.
  destruct m; cbn [sets snd argument]; try reflexivity; try apply show_N_ok; try (destruct b; reflexivity).
  assert (forall b, fold_left (fun buf n => buf ++ n ++ [32]) l b = b ++ concat (map (fun n => n ++ [32]) l)) as H; [|apply (H [])].
  induction l as [|n l IH]; intros b; cbn [fold_left map concat]; [rewrite app_nil_r; reflexivity|]. rewrite IH, <- app_assoc. reflexivity.
Qed.
Lemma in_odf k m : has k m = true -> In (named_for m) (odf_attrs (tag_name k)).
Proof. intros H. apply str_in. destruct k, m; try discriminate H; vm_compute; reflexivity. Qed.
Definition attrs_of (x : xnode) : list (str * str) := match x with XTag _ a _ => a | XText _ => [] end.
Lemma build_last k l s : build k (l ++ [s]) = into_xmltag (run_step (fold_left run_step l (xml_new (tag_name k))) s).
Proof. unfold build. rewrite fold_left_app. reflexivity. Qed.

(** ** Theorems *)

(** The element is the one the type is named for, with what was added in that order, and no attribute twice. *)
Theorem C65_built k l : exists a c, build k l = XTag (tag_name k) a c /\ adds l c /\ NoDup (map fst a).
Proof.
  destruct (adds_all l) as (c & H). unfold build, into_xmltag. rewrite run_name, (run_content l c H). eexists _, _. split; [reflexivity|]. split; [exact H|]. apply run_keys. constructor.
Qed.
(** The elements are different, and those of the checklist, with headings and paragraphs. *)
Theorem C65_elements : (forall k k', tag_name k = tag_name k' -> k = k') /\ (forall e, In e checklist <-> exists k, tag_name k = e /\ k <> TextH /\ k <> TextP).
Proof.
  split.
  - intros k k' E. destruct k, k'; try reflexivity; vm_compute in E; discriminate E.
  - intros e. split.
    + intros H. unfold checklist in H. cbn [map] in H. repeat (destruct H as [<-|H]; [|]); try contradiction;
      match goal with |- exists k, tag_name k = ?t /\ _ =>
        first [exists TextA; split; [reflexivity|split; discriminate] | exists TextSpan; split; [reflexivity|split; discriminate] | exists TextS; split; [reflexivity|split; discriminate]
          | exists TextTab; split; [reflexivity|split; discriminate] | exists SoftPageBreak; split; [reflexivity|split; discriminate] | exists MetaDate; split; [reflexivity|split; discriminate]
          | exists MetaTime; split; [reflexivity|split; discriminate] | exists MetaPageNumber; split; [reflexivity|split; discriminate] | exists MetaAuthorName; split; [reflexivity|split; discriminate]
          | exists MetaAuthorInitials; split; [reflexivity|split; discriminate] | exists MetaFileName; split; [reflexivity|split; discriminate] | exists MetaSheetName; split; [reflexivity|split; discriminate]
          | exists MetaInitialCreator; split; [reflexivity|split; discriminate] | exists MetaCreationDate; split; [reflexivity|split; discriminate] | exists MetaCreationTime; split; [reflexivity|split; discriminate]
          | exists MetaDescription; split; [reflexivity|split; discriminate] | exists MetaPrintTime; split; [reflexivity|split; discriminate] | exists MetaPrintDate; split; [reflexivity|split; discriminate]
          | exists MetaPrintedBy; split; [reflexivity|split; discriminate] | exists MetaTitle; split; [reflexivity|split; discriminate] | exists MetaSubject; split; [reflexivity|split; discriminate]
          | exists MetaKeywords; split; [reflexivity|split; discriminate] | exists MetaEditingCycles; split; [reflexivity|split; discriminate] | exists MetaEditingDuration; split; [reflexivity|split; discriminate]
          | exists MetaModificationTime; split; [reflexivity|split; discriminate] | exists MetaModificationDate; split; [reflexivity|split; discriminate] | exists MetaCreator; split; [reflexivity|split; discriminate]
          | exists MetaPageCount; split; [reflexivity|split; discriminate] | exists MetaCharacterCount; split; [reflexivity|split; discriminate]]
      end.
    + intros (k & <- & N1 & N2). apply str_in. destruct k; try contradiction; vm_compute; reflexivity.
Qed.
(** A method sets the attribute it is named for, one of the element, to the text of its argument, and leaves the others and the content alone. *)
Theorem C65_method k l m : has k m = true -> ~ misspelt m ->
  exists a c a' t, build k l = XTag (tag_name k) a c /\ build k (l ++ [Call m]) = XTag (tag_name k) a' c /\ In (named_for m) (odf_attrs (tag_name k)) /\
    argument m t /\ value_of (named_for m) a' = Some t /\ forall n, n <> named_for m -> value_of n a' = value_of n a.
Proof.
  intros H M. rewrite build_last. unfold build. set (t := fold_left run_step l (xml_new (tag_name k))). assert (N : tg_name t = tag_name k) by apply run_name.
  exists (tg_attrs t), (tg_content t), (put_attr (fst (sets m)) (snd (sets m)) (tg_attrs t)), (snd (sets m)). unfold into_xmltag. cbn [run_step xml_set_attr tg_name tg_attrs tg_content]. rewrite N.
  split; [reflexivity|]. split; [reflexivity|]. split; [exact (in_odf k m H)|]. split; [apply argument_spec|]. rewrite (sets_spec m M). split.
  - rewrite value_put, str_eqb_refl. reflexivity.
  - intros n E. rewrite value_put. assert (str_eqb (named_for m) n = false) as -> by (apply str_eqb_neq; congruence). reflexivity.
Qed.
(** Adding text or a tag leaves the attributes alone. *)
Theorem C65_add k l s : (forall m, s <> Call m) -> attrs_of (build k (l ++ [s])) = attrs_of (build k l).
Proof. intros H. rewrite build_last. destruct s as [m| |]; [destruct (H m eq_refl)| |]; reflexivity. Qed.
(** All attributes are ones the element has in ODF, if the misspelt methods are not used. *)
Theorem C65_known k l : Forall (fits k) l -> (forall m, In (Call m) l -> ~ misspelt m) -> forall n t, In (n, t) (attrs_of (build k l)) -> In n (odf_attrs (tag_name k)).
Proof.
  intros F M n t I. apply (in_map fst) in I. cbn [fst] in I. revert I. unfold build. cbn [into_xmltag attrs_of].
  assert (forall x, (In n (map fst (tg_attrs x)) -> In n (odf_attrs (tag_name k))) -> In n (map fst (tg_attrs (fold_left run_step l x))) -> In n (odf_attrs (tag_name k))) as H; [|apply H; intros []].
  clear t. induction F as [|s l F1 F2 IH]; intros x X; [exact X|]. cbn [fold_left]. apply IH; [intros m J; apply M; right; exact J|]. destruct s as [m|s|y]; cbn [run_step xml_set_attr xml_add_text xml_add_tag tg_attrs]; try exact X.
  intros J. assert (fst (sets m) = n \/ In n (map fst (tg_attrs x))) as [<-|J'].
  { clear - J. revert J. induction (tg_attrs x) as [|(k' & v') r IH]; cbn [put_attr map fst In]; [intros [J|[]]; auto|]. destruct (str_eqb k' (fst (sets m))); cbn [map fst In]; tauto. }
  - rewrite sets_spec by (apply M; left; reflexivity). apply in_odf. exact F1.
  - exact (X J').
Qed.
(** Each attribute of the lists has a method that is named for it. *)
Theorem C65_complete k n : In n (odf_attrs (tag_name k)) -> exists m, has k m = true /\ named_for m = n.
Proof.
  destruct k; cbv beta; intros H; vm_compute in H; repeat (destruct H as [<-|H]); try contradiction;
  first [exists (ClassNames []); split; reflexivity | exists (CondstyleName []); split; reflexivity | exists (Id []); split; reflexivity | exists (ListHeader true); split; reflexivity
    | exists (OutlineLevel 0); split; reflexivity | exists (RestartNumbering true); split; reflexivity | exists (StartValue 0); split; reflexivity | exists (StyleName []); split; reflexivity
    | exists (XmlId []); split; reflexivity | exists (VisitedStyleName []); split; reflexivity | exists (Href []); split; reflexivity | exists (Count 0); split; reflexivity | exists (TabRef 0); split; reflexivity].
Qed.
(** The misspelt ones set an attribute that is not of the element, and not the one they are named for. *)
Theorem C65_misspelt_refuted : forall k m, has k m = true -> misspelt m -> exists n t, build k [Call m] = XTag (tag_name k) [(n, t)] [] /\ ~ In n (odf_attrs (tag_name k)) /\ n <> named_for m.
Proof.
  intros k m H M. destruct m; try contradiction; eexists _, _; (split; [reflexivity|]); (split; [intros I; apply str_in in I; destruct k; try discriminate H; vm_compute in I; discriminate I|discriminate]).
Qed.
Example C65_misspelt_ex : has TextP (CondstyleName (lit "x")) = true /\ has TextH (OutlineLevel 2) = true /\ build TextH [Call (OutlineLevel 2)] = XTag (lit "text:h") [(lit "text:outlinelevel", lit "2")] [].
Proof. repeat split. Qed.

(** ** With files *)

(** What is made with the builders to stand in a paragraph. *)
Inductive inline : xnode -> Prop :=
| inline_made k l : k <> TextH -> k <> TextP -> Forall (fits k) l -> (forall x, In (AddTag x) l -> inline x) -> inline (build k l).
Lemma method_name m : name_ok (fst (sets m)).
Proof. destruct m; cbn [sets fst]; name_lit. Qed.
Lemma kind_name k : name_ok (tag_name k).
Proof. destruct k; name_lit. Qed.
Lemma run_names l : forall t, Forall (fun kv => name_ok (fst kv)) (tg_attrs t) -> Forall (fun kv => name_ok (fst kv)) (tg_attrs (fold_left run_step l t)).
Proof.
  induction l as [|s l IH]; intros t H; [exact H|]. cbn [fold_left]. apply IH. destruct s as [m|s|x]; cbn [run_step xml_set_attr xml_add_text xml_add_tag tg_attrs]; try exact H.
  assert (G := method_name m). revert H G. generalize (fst (sets m)) (snd (sets m)). intros n v H G. induction (tg_attrs t) as [|(k & u) r IHr]; cbn [put_attr]; [constructor; [exact G|constructor]|].
  inversion H as [|? ? H1 H2]; subst. destruct (str_eqb k n); constructor; auto.
Qed.
Lemma adds_in l c x : adds l c -> In x c -> In (AddTag x) l \/ exists s, x = XText s.
Proof. induction 1; cbn [In]; intros I; [contradiction| | |]; try (destruct I as [<-|I]; [eauto|]); destruct (IHadds I) as [J|J]; auto. Qed.
Lemma inline_ok x : inline x -> names_ok x /\ lacks (lit "text:p") x.
Proof.
  induction 1 as [k l K1 K2 F T IH]. destruct (C65_built k l) as (a & c & E & A & _). rewrite E.
  assert (Forall (fun kv => name_ok (fst kv)) a) as N.
  { unfold build, into_xmltag in E. assert (G := run_names l (xml_new (tag_name k)) (Forall_nil _)). injection E as _ E _. rewrite E in G. exact G. }
  split.
  - apply names_ok_tag. split; [apply kind_name|]. split; [exact N|]. apply Forall_forall. intros y I. destruct (adds_in l c y A I) as [J|(s & ->)]; [exact (proj1 (IH y J))|exact Logic.I].
  - apply lacks_tag. split; [right; destruct k; try contradiction; vm_compute; discriminate|]. apply Forall_forall. intros y I. destruct (adds_in l c y A I) as [J|(s & ->)]; [exact (proj2 (IH y J))|exact Logic.I].
Qed.
(** A paragraph made with the builders, without another paragraph or a heading inside, can be written and read. *)
Theorem C65_paragraph l : Forall (fits TextP) l -> (forall x, In (AddTag x) l -> inline x) -> para_ok (build TextP l).
Proof.
  intros F T. destruct (C65_built TextP l) as (a & c & E & A & _). rewrite E. split; [reflexivity|].
  assert (Forall (fun kv => name_ok (fst kv)) a) as N.
  { assert (G := run_names l (xml_new (tag_name TextP)) (Forall_nil _)). apply (f_equal attrs_of) in E. change (tg_attrs (fold_left run_step l (xml_new (tag_name TextP))) = a) in E. rewrite E in G. exact G. }
  split.
  - apply names_ok_tag. split; [apply kind_name|]. split; [exact N|]. apply Forall_forall. intros y I. destruct (adds_in l c y A I) as [J|(s & ->)]; [exact (proj1 (inline_ok y (T y J)))|exact Logic.I].
  - apply Forall_forall. intros y I. destruct (adds_in l c y A I) as [J|(s & ->)]; [exact (proj2 (inline_ok y (T y J)))|exact Logic.I].
Qed.
(** Paragraphs with a tag in each come back as they were built. *)
Theorem C65_survives lb ign dflt ds c h k ls : c_value c = VTextXml (map (build TextP) ls) -> ls <> [] ->
  Forall (fun l => Forall (fits TextP) l /\ (forall x, In (AddTag x) l -> inline x) /\ exists x, In (AddTag x) l) ls -> extra_ok c -> 1 <= k <= u32_max ->
  exists o l', through_file lb ign dflt ds c h k = Ok (k, o) /\ read_value o = VTextXml l' /\ Forall2 (fun l y => norm y = norm (broken lb (build TextP l))) ls l'.
Proof.
  intros V N F X K. destruct (C55_survives lb ign dflt ds c h k (map (build TextP) ls) V) as (o & l' & O & R & G).
  - destruct ls; [contradiction|discriminate].
  - apply Forall_map. eapply Forall_impl; [|exact F]. intros l (F1 & F2 & _). apply C65_paragraph; assumption.
  - apply Forall_map. eapply Forall_impl; [|exact F]. intros l (F1 & F2 & x & I). destruct (C65_built TextP l) as (a & d & E & A & _). exists (tag_name TextP), a, d. split; [exact E|].
    clear - A I F2. induction A; cbn [In] in I; [contradiction| | |].
    + destruct I as [I|I]; [discriminate I|]. cbn [plain_of]. rewrite IHA; auto. intros y J. apply F2. right. exact J.
    + assert (inline x0) as Q by (apply F2; left; reflexivity). inversion Q. destruct (C65_built k l0) as (a & d & E & _). rewrite E. reflexivity.
    + destruct I as [I|I]; [discriminate I|]. apply IHA; auto. intros y J. apply F2. right. exact J.
  - exact X.
  - exact K.
  - exists o, l'. split; [exact O|]. split; [exact R|]. clear - G. revert l' G. induction ls as [|l ls IH]; intros l' G; inversion G; subst; constructor; auto.
Qed.
Example C65_ex : let l := [Call (StyleName (lit "p1")); AddText (lit "some text"); AddTag (build MetaAuthorName []); AddTag (build TextS [Call (Count 1); Call (Count 3)]); AddText (lit "whatever"); Call (StyleName (lit "p2"))] in
  build TextP l = XTag (lit "text:p") [(lit "text:style-name", lit "p2")] [XText (lit "some text"); XTag (lit "text:author-name") [] []; XTag (lit "text:s") [(lit "text:c", lit "3")] []; XText (lit "whatever")] /\
  Forall (fits TextP) l /\ (forall x, In (AddTag x) l -> inline x) /\ got false [build TextP l] = Ok (VTextXml [build TextP l]).
Proof.
  cbv zeta. split; [reflexivity|]. split; [repeat constructor|]. split; [|vm_compute; reflexivity].
  intros x [E|[E|[E|[E|[E|[E|[]]]]]]]; try discriminate E.
  - assert (x = build MetaAuthorName []) as -> by congruence. constructor; [discriminate|discriminate|constructor|intros y []].
  - assert (x = build TextS [Call (Count 1); Call (Count 3)]) as -> by congruence. constructor; [discriminate|discriminate|repeat constructor|intros y [J|[J|[]]]; discriminate J].
Qed.
Example C65_class_ex : build TextSpan [Call (ClassNames [lit "a"; lit "b"])] = XTag (lit "text:span") [(lit "text:class-names", lit "a b ")] [].
Proof. reflexivity. Qed.
(** A heading is lost. *)
Theorem C65_heading_refuted : exists l, Forall (fits TextH) l /\ got false [build TextH l] = Ok VEmpty /\ says (build TextH l) = lit "a".
Proof. exists [AddText (lit "a")]. split; [repeat constructor|]. split; vm_compute; reflexivity. Qed.

Print Assumptions C65_built.
Print Assumptions C65_elements.
Print Assumptions C65_method.
Print Assumptions C65_add.
Print Assumptions C65_known.
Print Assumptions C65_complete.
Print Assumptions C65_misspelt_refuted.
Print Assumptions C65_paragraph.
Print Assumptions C65_survives.
Print Assumptions C65_heading_refuted.
