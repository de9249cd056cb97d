(** C56: every prefix in the files that are written is declared on the root element, and no attribute is twice in a tag. *)
From Coq Require Import Permutation.
From Verif Require Import Base Lib OMap NumModel EnumModel RefsModel XmlModel XmlSpec XmlProofs CellModel CellIoModel CellIoProofs DrawModel BookModel HeaderModel TableModel StyleModel ValidModel ScriptModel MetaModel ConfigModel WorkModel NsSpec NsProofs.
From Verif Require WorkProps StyleProps DrawProps.

(** The namespaces that are written, [l], are those of the workbook and those of the code, in some order. *)
Lemma ns_given st added m l : Permutation l (put_all added m) -> ns_map_ok m -> forallb (fun kv => xmlns_b (fst kv)) added = true -> forallb (fun k => existsb (str_eqb k) (map fst added)) st = true ->
  ns_map_ok l /\ incl st (map fst l).
Proof.
  intros P M A I. split; [eapply perm_map_ok; [exact P|]; apply puts_ok; [now apply table_xmlns|exact M]|]. intros k Hk. apply (Permutation_in k (Permutation_sym (Permutation_map fst P))). apply puts_keys. left.
  rewrite forallb_forall in I. apply I in Hk. apply existsb_exists in Hk as (x & Hx & E). apply str_eqb_eq in E. now subst.
Qed.
Lemma roots w l : ns_map_ok l -> incl [lit "xmlns:office"] (map fst l) -> attrs_fine (map fst (root_attrs w l)) (root_attrs w l).
Proof. intros M O. apply root_fine; auto. intros k [<-|[]]. reflexivity. Qed.
Lemma roots_incl w l st : incl st (map fst l) -> incl st (map fst (root_attrs w l)).
Proof. intros H k I. unfold root_attrs. rewrite map_app. apply in_or_app. left. now apply H. Qed.
Lemma office_declared st ns n : incl st ns -> In (lit "xmlns:office") st -> prefix_of n = Some (lit "office") -> declared ns n.
Proof. intros S I P. unfold declared. rewrite P. right. right. apply S, I. Qed.

Theorem C56_content lb w l cs : Permutation l (put_all ns_content (ns_of (lit "content.xml") w)) -> ns_map_ok (ns_of (lit "content.xml") w) -> content_calls w l = Ok cs ->
  body_part_fine (map fst (root_attrs w l)) w -> styles_fine (map fst (root_attrs w l)) (wb_styles w) -> names_fine (events_of lb cs).
Proof.
  intros P M H B St. destruct (ns_given std _ _ _ P M eq_refl eq_refl) as (Ml & I). pose proof (roots_incl w _ _ I) as S.
  unfold content_calls in H. apply bind_ok in H as (b & Eb & H). unfold content_doc in H. apply bind_ok in H as (a & Ea & H).
  match type of H with Ok ?x = _ => assert (E : cs = x) by congruence end. rewrite E. clear H E. apply doc_fine.
  - exact Logic.I.
  - apply (office_declared std); [exact S|now left|reflexivity].
  - apply roots; [exact Ml|]. intros k [<-|[]]. apply I. now left.
  - apply pk_scripts; [exact S|apply B|]. apply pk_fonts; [exact S|exact St|]. eapply pk_automatic; [exact S|exact St|exact Ea|]. eapply pk_body; [exact S|exact B|exact Eb|]. apply any_end, any_nil.
Qed.
Theorem C56_styles lb w l cs : Permutation l (put_all ns_styles (ns_of (lit "styles.xml") w)) -> ns_map_ok (ns_of (lit "styles.xml") w) -> styles_calls w l = Ok cs ->
  styles_fine (map fst (root_attrs w l)) (wb_styles w) -> names_fine (events_of lb cs).
Proof.
  intros P M H St. destruct (ns_given std _ _ _ P M eq_refl eq_refl) as (Ml & I). pose proof (roots_incl w _ _ I) as S.
  unfold styles_calls, styles_doc in H. apply bind_ok in H as (s & Es & H). apply bind_ok in H as (a & Ea & H). apply bind_ok in H as (m & Em & H).
  match type of H with Ok ?x = _ => assert (E : cs = x) by congruence end. rewrite E. clear H E. apply doc_fine.
  - exact Logic.I.
  - apply (office_declared std); [exact S|now left|reflexivity].
  - apply roots; [exact Ml|]. intros k [<-|[]]. apply I. now left.
  - apply pk_fonts; [exact S|exact St|]. eapply pk_office_styles; [exact S|exact St|exact Es|]. eapply pk_automatic; [exact S|exact St|exact Ea|]. eapply pk_masters; [exact S|exact St|exact Em|]. apply any_end, any_nil.
Qed.
Theorem C56_settings lb w l cs : Permutation l (put_all ns_settings (ns_of (lit "settings.xml") w)) -> ns_map_ok (ns_of (lit "settings.xml") w) -> settings_calls w l = Ok cs -> names_fine (events_of lb cs).
Proof.
  intros P M H. destruct (ns_given std_settings _ _ _ P M eq_refl eq_refl) as (Ml & I). pose proof (roots_incl w _ _ I) as S.
  unfold settings_calls, write_ods_settings in H. apply bind_ok in H as (s & Es & H). assert (cs = CDtd (lit "UTF-8") :: CElem (lit "office:document-settings") :: attr_calls (root_attrs w l) ++ s ++ [CEnd (lit "office:document-settings")]) as -> by (cbn [app] in H; unfold attr_calls; congruence).
  apply doc_fine.
  - unfold write_settings in Es. destruct (wb_config w); [injection Es as <-; exact Logic.I|]. apply bind_ok in Es as (b & _ & Es). injection Es as <-. exact Logic.I.
  - apply (office_declared std_settings); [exact S|now left|reflexivity].
  - apply roots; [exact Ml|]. intros k [<-|[]]. apply I. now left.
  - eapply pk_settings; [exact S|exact Es|]. apply any_end, any_nil.
Qed.
(** The file with the metadata declares two prefixes; it uses two more. *)
Theorem C56_meta lb w l : Permutation l (put_all ns_meta (ns_of (lit "meta.xml") w)) -> ns_map_ok (ns_of (lit "meta.xml") w) ->
  In (lit "xmlns:dc") (map fst l) -> In (lit "xmlns:xlink") (map fst l) -> names_fine (events_of lb (meta_calls w l)).
Proof.
  intros P M Dc Xl. destruct (ns_given [lit "xmlns:office"; lit "xmlns:meta"] _ _ _ P M eq_refl eq_refl) as (Ml & I).
  assert (J : incl std_meta (map fst l)) by (intros k [<-|[<-|[<-|[<-|[]]]]]; auto; apply I; cbn; auto). pose proof (roots_incl w _ _ J) as S.
  unfold meta_calls, write_ods_meta. match goal with |- names_fine (events_of lb ([?d; ?e] ++ ?a ++ ?r)) => change (names_fine (events_of lb (d :: e :: attr_calls (root_attrs w l) ++ r))) end. apply doc_fine.
  - exact Logic.I.
  - apply (office_declared std_meta); [exact S|now left|reflexivity].
  - apply roots; [exact Ml|]. intros k [<-|[]]. apply I. now left.
  - apply pk_meta; [exact S|]. apply any_end, any_nil.
Qed.
Theorem C56_meta_bare lb w l : Permutation l (put_all ns_meta (ns_of (lit "meta.xml") w)) -> ns_map_ok (ns_of (lit "meta.xml") w) -> meta_bare (wb_meta w) -> names_fine (events_of lb (meta_calls w l)).
Proof.
  intros P M B. destruct (ns_given bare_meta _ _ _ P M eq_refl eq_refl) as (Ml & I). pose proof (roots_incl w _ _ I) as S.
  unfold meta_calls, write_ods_meta. match goal with |- names_fine (events_of lb ([?d; ?e] ++ ?a ++ ?r)) => change (names_fine (events_of lb (d :: e :: attr_calls (root_attrs w l) ++ r))) end. apply doc_fine.
  - exact Logic.I.
  - apply (office_declared bare_meta); [exact S|now left|reflexivity].
  - apply roots; [exact Ml|]. intros k [<-|[]]. apply I. now left.
  - apply pk_meta_bare; [exact B|exact S|]. apply any_end, any_nil.
Qed.
(** The attributes of the root of a flat file. *)
Definition flat_attrs (w : workbook) (l : amap str) : attrs := root_attrs w l ++ [(lit "office:mimetype", mimetype)].
Theorem C56_fods lb w l cs : Permutation l (put_all ns_fods (ns_of (lit "meta.xml") w)) -> ns_map_ok (ns_of (lit "meta.xml") w) -> fods_calls w l = Ok cs ->
  body_part_fine (map fst (flat_attrs w l)) w -> styles_fine (map fst (flat_attrs w l)) (wb_styles w) -> names_fine (events_of lb cs).
Proof.
  intros P M H B St. destruct (ns_given (std ++ std_meta ++ std_settings) _ _ _ P M eq_refl eq_refl) as (Ml & I).
  assert (S : incl (std ++ std_meta ++ std_settings) (map fst (flat_attrs w l))) by (intros k Hk; unfold flat_attrs; rewrite map_app; apply in_or_app; left; now apply (roots_incl w l _ I)).
  assert (S1 : incl std (map fst (flat_attrs w l))) by (intros k Hk; apply S; apply in_or_app; now left).
  assert (S2 : incl std_meta (map fst (flat_attrs w l))) by (intros k Hk; apply S; apply in_or_app; right; apply in_or_app; now left).
  assert (S3 : incl std_settings (map fst (flat_attrs w l))) by (intros k Hk; apply S; apply in_or_app; right; apply in_or_app; now right).
  unfold fods_calls in H. apply bind_ok in H as (se & Ese & H). apply bind_ok in H as (b & Eb & H). unfold fods_doc in H. apply bind_ok in H as (s & Es & H). apply bind_ok in H as (a & Ea & H). apply bind_ok in H as (m & Em & H).
  fold (flat_attrs w l) in H. match type of H with Ok ?x = _ => assert (E : cs = x) by congruence end. rewrite E. clear H E. pose proof (convert_fine _ _ St) as Sc. apply doc_fine.
  - exact Logic.I.
  - apply (office_declared std); [exact S1|now left|reflexivity].
  - unfold flat_attrs, root_attrs. rewrite <- app_assoc. apply root_fine; [exact Ml|reflexivity|intros k [<-|[]]; apply I; now left|]. intros k [<-|[<-|[]]]; reflexivity.
  - rewrite <- !app_assoc. apply pk_meta; [exact S2|]. eapply pk_settings; [exact S3|exact Ese|]. apply pk_scripts; [exact S1|apply B|]. apply pk_fonts; [exact S1|exact Sc|].
    eapply pk_office_styles; [exact S1|exact Sc|exact Es|]. eapply pk_automatic; [exact S1|exact Sc|exact Ea|]. eapply pk_masters; [exact S1|exact Sc|exact Em|]. eapply pk_body; [exact S1|exact B|exact Eb|]. apply any_end, any_nil.
Qed.
(** The same about the text, when it can be read at all. *)
Theorem C56_text lb cs : sensible false cs -> calls_nested [] cs -> names_fine (events_of lb cs) -> exists evs, read_events (render lb cs) = Ok evs /\ names_fine evs.
Proof. intros S N F. exists (events_of lb cs). split; [now apply read_events_render|exact F]. Qed.

(** ** Deciding *)

Definition declared_b (ns : list str) (n : str) : bool :=
  match prefix_of n with
  | None => true
  | Some p => str_eqb p (lit "xml") || str_eqb p (lit "xmlns") || existsb (str_eqb (lit "xmlns:" ++ p)) ns
  end.
Lemma existsb_in k l : existsb (str_eqb k) l = true <-> In k l.
Proof. rewrite existsb_exists. split; [intros (x & I & E); apply str_eqb_eq in E; now subst|intros I; exists k; split; [exact I|apply str_eqb_refl]]. Qed.
Lemma declared_iff ns n : declared_b ns n = true <-> declared ns n.
Proof.
  unfold declared_b, declared. destruct (prefix_of n) as [p|]; [|tauto]. rewrite !orb_true_iff, existsb_in. pose proof (str_eqb_eq p (lit "xml")). pose proof (str_eqb_eq p (lit "xmlns")). tauto.
Qed.
Lemma apart_iff l : apart l = true <-> NoDup l.
Proof.
  split; [apply apart_nodup|]. induction 1 as [|k l N _ IH]; [reflexivity|]. cbn [apart]. rewrite IH, andb_true_r. apply negb_true_iff. apply not_true_iff_false. intros E. apply N. now apply existsb_in.
Qed.
Definition attrs_fine_b (ns : list str) (a : list (str * str)) : bool := forallb (fun kv => declared_b ns (fst kv)) a && apart (map fst a).
Lemma attrs_fine_iff ns a : attrs_fine_b ns a = true <-> attrs_fine ns a.
Proof.
  unfold attrs_fine_b, attrs_fine. rewrite andb_true_iff, apart_iff, forallb_forall, Forall_forall. split; intros (A & B); split; auto; intros x I; apply declared_iff; auto.
Qed.
Definition tag_fine_b (ns : list str) (e : event) : bool := match e with EStart n a | EEmpty n a => declared_b ns n && attrs_fine_b ns a | _ => true end.
Lemma tag_fine_iff ns e : tag_fine_b ns e = true <-> tag_fine ns e.
Proof. destruct e; cbn [tag_fine_b tag_fine]; try tauto; rewrite andb_true_iff, declared_iff, attrs_fine_iff; tauto. Qed.
Fixpoint root (evs : list event) : option attrs :=
  match evs with EStart _ a :: _ => Some a | EOther _ :: r | EText _ :: r => root r | _ => None end.
Definition names_fine_b (evs : list event) : bool := match root evs with Some a => forallb (tag_fine_b (map fst a)) evs | None => false end.
Lemma names_fine_iff evs : names_fine_b evs = true <-> names_fine evs.
Proof.
  unfold names_fine_b, names_fine. split.
  - intros H. assert (R : forall es a, root es = Some a -> exists pre n r, es = pre ++ EStart n a :: r /\ Forall (fun e => match e with EOther _ | EText _ => True | _ => False end) pre).
    { induction es as [|e es IH]; intros a E; [discriminate|]. destruct e; cbn [root] in E; try discriminate.
      - injection E as ->. exists [], n, es. split; [reflexivity|constructor].
      - destruct (IH a E) as (pre & m & r & -> & F). eexists (_ :: pre), m, r. split; [reflexivity|]. constructor; [exact I|exact F].
      - destruct (IH a E) as (pre & m & r & -> & F). eexists (_ :: pre), m, r. split; [reflexivity|]. constructor; [exact I|exact F]. }
    destruct (root evs) as [a|] eqn:E; [|discriminate]. destruct (R _ _ E) as (pre & n & r & Ev & F). exists pre, n, a, r. split; [exact Ev|]. split; [exact F|].
    apply Forall_forall. intros e I. rewrite forallb_forall in H. apply tag_fine_iff. now apply H.
  - intros (pre & n & a & r & E & F & G). assert (R : root evs = Some a). { rewrite E. clear - F. induction F as [|e pre H _ IH]; [reflexivity|]. destruct e; try contradiction; exact IH. }
    rewrite R. apply forallb_forall. intros e I. apply tag_fine_iff. rewrite Forall_forall in G. now apply G.
Qed.

(** ** What is not so *)

(** A new workbook with a title, as it is right after [new_empty] and [set_title]: the prefix dc is not declared in meta.xml. *)
Definition meta_titled : meta := Meta [] (lit "Title") [] [] [] [] [] [] None None None [] 0 0 template0 reload0 links0 stats0 [].
Theorem C56_meta_refuted : exists w l, Permutation l (put_all ns_meta (ns_of (lit "meta.xml") w)) /\ ns_map_ok (ns_of (lit "meta.xml") w) /\ wb_ns w = []
  /\ exists evs, read_events (render false (meta_calls w l)) = Ok evs /\ ~ names_fine evs.
Proof.
  exists (put_meta meta_titled (work0 config0)), ns_meta. split; [apply Permutation_sym, Permutation_rev|]. split; [split; constructor|]. split; [reflexivity|].
  eexists. split; [vm_compute; reflexivity|]. rewrite <- names_fine_iff. vm_compute. discriminate.
Qed.
(** The same for the template of a document: here it is the prefix xlink, and no field is there. *)
Theorem C56_template_refuted : exists w l, Permutation l (put_all ns_meta (ns_of (lit "meta.xml") w)) /\ m_title (wb_meta w) = []
  /\ exists evs, read_events (render false (meta_calls w l)) = Ok evs /\ ~ names_fine evs.
Proof.
  exists (put_meta (Meta [] [] [] [] [] [] [] [] None None None [] 0 0 (MTemplate None None (Some (lit "a.ots")) None None) reload0 links0 stats0 []) (work0 config0)), ns_meta.
  split; [apply Permutation_sym, Permutation_rev|]. split; [reflexivity|]. eexists. split; [vm_compute; reflexivity|]. rewrite <- names_fine_iff. vm_compute. discriminate.
Qed.
(** An annotation that got its name as an attribute has two names, a font that did so also; one of them alone is fine. *)
Definition double_sheet : sheet := put_cells [((0, 0), Cell VEmpty None None 1 (Some (CExt None (CSpan 1 1) (CSpan 1 1) (Some (Ann (lit "n") true None None [] [(lit "office:name", lit "m")])) [])))] sheet0.
Theorem C56_twice_refuted : exists w l cs, Permutation l (put_all ns_content (ns_of (lit "content.xml") w)) /\ ns_map_ok (ns_of (lit "content.xml") w) /\ content_calls w l = Ok cs
  /\ styles_fine (map fst (root_attrs w l)) (wb_styles w) /\ ~ names_fine (events_of false cs).
Proof.
  exists (put_sheets [double_sheet] (work0 config0)), (put_all ns_content []). eexists. split; [apply Permutation_refl|]. split; [split; constructor|]. split; [vm_compute; reflexivity|].
  split; [split; [intros f kv []|constructor]|]. rewrite <- names_fine_iff. vm_compute. discriminate.
Qed.

(** A flat file declares a prefix of its own and uses it; the workbook read from it has it under another name than the one it is looked up with,
    and the flat file that is written uses the prefix without declaring it. *)
Definition own_prefix : str :=
  lit "<office:document xmlns:office='o' xmlns:table='t' xmlns:text='x' xmlns:my='m'><office:body><office:spreadsheet><table:table table:name='s'><table:table-row>"
  ++ lit "<table:table-cell office:value-type='string'><text:p my:x='1'>a<text:span>b</text:span></text:p></table:table-cell></table:table-row></table:table></office:spreadsheet></office:body></office:document>".
Definition fine_text (t : str) : Prop := exists evs, read_events t = Ok evs /\ names_fine evs.
Theorem C56_flat_refuted : exists t w t' evs, fine_text t /\ read_fods false false config0 t = Ok w /\ write_fods w (put_all ns_fods (ns_of (lit "meta.xml") w)) = Ok t'
  /\ am_get (lit "xmlns:my") (ns_of (lit "fods.xml") w) = Some (lit "m") /\ read_events t' = Ok evs /\ ~ names_fine evs.
Proof.
  exists own_prefix. eexists _, _, _. split; [eexists; split; [vm_compute; reflexivity|apply names_fine_iff; vm_compute; reflexivity]|].
  split; [vm_compute; reflexivity|]. split; [vm_compute; reflexivity|]. split; [vm_compute; reflexivity|]. split; [vm_compute; reflexivity|]. rewrite <- names_fine_iff. vm_compute. discriminate.
Qed.

(** ** Examples *)

Example C56_meta_bare_ex : names_fine_b (events_of false (meta_calls (work0 config0) ns_meta)) = true /\ meta_bare (wb_meta (work0 config0)).
Proof. split; [vm_compute; reflexivity|]. repeat split. Qed.
(** A workbook with all there is: its texts, and what the theorems ask for. *)
Definition evs_of (r : res str) : bool := match r with Ok t => match read_events t with Ok evs => names_fine_b evs | _ => false end | _ => false end.
Definition ex_s (n : str) : sheet := add_extra (XTag (lit "table:shapes") [] [])
  (put_cells [((0, 0), DrawProps.ex_cell (Some DrawProps.ex_ann) [DrawProps.ex_frame]); ((1, 2), Cell (VTextXml [XTag (lit "text:p") [(n, lit "1")] []]) None None 1 None)] sheet0).
Definition ex_w (n : str) : workbook := put_sheets [ex_s n] WorkProps.ex_full.
Example C56_texts_ex : (let f := WorkProps.ex_files (ex_w (lit "my:x")) in
  (evs_of (bind f (fun f => Ok (fl_content f))), evs_of (bind f (fun f => Ok (fl_styles f))), evs_of (bind f (fun f => Ok (fl_settings f))), evs_of (bind f (fun f => Ok (fl_meta f)))), evs_of (WorkProps.ex_flat (ex_w (lit "my:x"))), evs_of (WorkProps.ex_flat (ex_w (lit "loext:x"))))
  = (true, true, true, false, false, true).
Proof. vm_compute. reflexivity. Qed.
Ltac fine := repeat first [progress cbn [fst snd ft_attr tree_fine text_p x_frames an_attrs an_text DrawProps.ex_ann DrawProps.ex_frame DrawProps.ex_image DrawProps.par df_attrs df_content im_attrs im_text]|match goal with |- attrs_fine _ _ => apply attrs_fine_iff; vm_compute; reflexivity | |- declared _ _ => apply declared_iff; vm_compute; reflexivity | |- True => exact I | |- ~ _ => let H := fresh in intros H; vm_compute in H; intuition discriminate
  | |- note_fine _ _ => split | |- attrs_but _ _ _ => split | |- dframe_fine _ _ => split | |- image_fine _ _ => split | |- style_fine _ _ => split; [|split; [|split; [|split]]] | |- format_fine _ _ => split | |- page_fine _ _ => split | |- hf_fine _ _ => split
  | |- _ /\ _ => split | |- Forall _ [] => constructor | |- Forall _ (_ :: _) => constructor | |- forall s : hslot, _ => intros s; destruct s | |- forall l, _ = Some l -> _ => let l := fresh "l" in let E := fresh "E" in intros l E; vm_compute in E; first [discriminate E|injection E as <-]
  | |- Forall ?P ?l => let k := eval hnf in l in progress change (Forall P k) end].
Definition ex_ns : list str := map fst (root_attrs (ex_w (lit "my:x")) (put_all ns_content (ns_of (lit "content.xml") (ex_w (lit "my:x"))))).
Example C56_ex : body_part_fine ex_ns (ex_w (lit "my:x")) /\ styles_fine ex_ns (wb_styles (ex_w (lit "my:x"))) /\ ns_map_ok (ns_of (lit "content.xml") (ex_w (lit "my:x"))).
Proof.
  split; [|split].
  - split; [constructor|]. split; [|split; [|change (Forall (tree_fine ex_ns) WorkProps.ex_extras); unfold WorkProps.ex_extras; fine]].
    + repeat constructor; intros m x Em Ex; vm_compute in Em; try discriminate; injection Em as <-; cbn [ValidModel.m_text] in Ex; try discriminate; injection Ex as <-; fine.
    + constructor; [|constructor]. split; [|apply Forall_cons; [fine|apply Forall_nil]]. constructor; [|constructor; [|constructor]].
      * split; [discriminate|]. intros x Ex. injection Ex as <-. split; [intros a Ea; injection Ea as <-|]; fine.
      * split; [|discriminate]. intros l El. injection El as <-. fine.
  - split.
    + intros f kv I. cbn [ex_w put_sheets WorkProps.ex_full WorkProps.ex_work wb_styles StyleProps.ex_book sk_book bk_styles] in I. destruct f; cbn [StyleProps.ex_styles In] in I; intuition (subst; cbn [snd nm_body body_fine]; fine).
    + fine.
  - split; [apply apart_nodup; vm_compute; reflexivity|]. apply table_xmlns. vm_compute. reflexivity.
Qed.

Print Assumptions C56_content.
Print Assumptions C56_styles.
Print Assumptions C56_settings.
Print Assumptions C56_meta.
Print Assumptions C56_meta_bare.
Print Assumptions C56_fods.
Print Assumptions C56_text.
Print Assumptions C56_meta_refuted.
Print Assumptions C56_template_refuted.
Print Assumptions C56_twice_refuted.
Print Assumptions C56_flat_refuted.
