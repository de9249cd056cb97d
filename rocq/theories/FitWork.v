(** Proofs for FitProps.v: the workbook. *)
From Verif Require Import Base Lib OMap RefsModel RefsSpec RefsProofs CellModel HeaderModel TableModel XmlModel BookModel CellIoModel ValidModel ValidProofs.
From Verif Require Import ConfigModel ConfigSpec ConfigProofs ConfigShape StyleModel StyleSpec WorkModel WorkSpec FitSpec FitProofs.

Lemma cat_total {A} (f : A -> res (list call)) l : (forall x, In x l -> exists cs, f x = Ok cs) -> exists cs, cat_calls f l = Ok cs.
Proof.
  induction l as [|x l IH]; intros H; [cbn; eauto|]. cbn [cat_calls]. destruct (H x (or_introl eq_refl)) as (a & ->). cbn [bind].
  destruct (IH (fun y I => H y (or_intror I))) as (b & ->). cbn. eauto.
Qed.
Lemma smap_total m : smap_ok m -> exists cs, smap_calls m = Ok cs.
Proof.
  unfold smap_ok, smap_calls. destruct (sp_base m) as [r|]; [|cbn; eauto]. intros (U & _). destruct (cellref_text_ok r U) as (t & -> & _). cbn. eauto.
Qed.
Lemma style_total f n u b : style_ok f b -> exists cs, style_calls f n u b = Ok cs.
Proof.
  intros (_ & _ & _ & _ & _ & _ & M & _). unfold style_calls, style_inner. destruct f; cbn [bind]; eauto.
  destruct (sb_maps b) as [ms|]; [|cbn; eauto]. destruct (cat_total smap_calls ms) as (cs & ->); [|cbn; eauto].
  intros m I. apply smap_total. destruct (M ms eq_refl) as (_ & F). rewrite Forall_forall in F. auto.
Qed.
(** Styles can be written whatever their origin and use. *)
Definition book_writes (b : stylebook) : Prop := forall f k s, f <> FValidation -> In (k, s) (bk_styles (sk_book b) f) -> forall o u, exists cs, StyleModel.item_calls o u f s = Ok cs.
Lemma book_total lb b : book_ok lb b -> book_writes b.
Proof.
  intros (_ & H & _) f k s Nf I o u. destruct (H f k s Nf I) as (_ & _ & B). unfold StyleModel.item_calls. destruct (nm_body s) as [o' u' x|o' u' x|x|x]; cbn [body_ok] in B; eauto.
  - destruct (_ && _); [|eauto]. now apply style_total.
  - destruct (_ && _); eauto.
Qed.
Lemma convert_total lb b : book_ok lb b -> book_writes (convert b).
Proof.
  intros (_ & H & _) f k s Nf I o u. cbn [convert sk_book bk_styles] in I. apply in_map_iff in I as ([k' s'] & E & I). cbn [fst snd] in E. injection E as <- <-.
  destruct (H f k' s' Nf I) as (_ & _ & B). unfold StyleModel.item_calls, converted. destruct (nm_body s') as [o' u' x|o' u' x|x|x] eqn:Eb; cbn [body_ok nm_body nm_name] in *.
  - destruct (_ && _); [|eauto]. now apply style_total.
  - destruct (_ && _); eauto.
  - rewrite Eb. eauto.
  - rewrite Eb. eauto.
Qed.
Lemma family_total b o u f : book_writes b -> f <> FValidation -> exists cs, family_calls b o u f = Ok cs.
Proof. intros H Nf. unfold family_calls. apply cat_total. intros [k s] I. exact (H f k s Nf I o u). Qed.
Lemma styles_total b o u : book_writes b -> exists cs, write_styles b o u = Ok cs.
Proof. intros H. unfold write_styles. apply cat_total. intros f I. apply family_total; [exact H|]. intros ->. cbn in I. decompose [or] I; try discriminate; contradiction. Qed.
Lemma formats_total b o u : book_writes b -> exists cs, write_formats b o u = Ok cs.
Proof. intros H. unfold write_formats. apply cat_total. intros f I. apply family_total; [exact H|]. intros ->. cbn in I. decompose [or] I; try discriminate; contradiction. Qed.
Lemma office_total b o : book_writes b -> exists cs, write_office_styles b o = Ok cs.
Proof.
  intros H. unfold write_office_styles. destruct (styles_total b o UDefault H) as (? & ->). destruct (styles_total b o UNamed H) as (? & ->).
  destruct (formats_total b o UNamed H) as (? & ->). destruct (formats_total b o UDefault H) as (? & ->). cbn. eauto.
Qed.
Lemma automatic_total b o : book_writes b -> exists cs, write_automatic b o = Ok cs.
Proof.
  intros H. unfold write_automatic. destruct (family_total b o UAutomatic FPage H) as (? & ->); [discriminate|]. destruct (styles_total b o UAutomatic H) as (? & ->).
  destruct (formats_total b o UAutomatic H) as (? & ->). cbn. eauto.
Qed.
Lemma masters_total b : book_writes b -> exists cs, write_masters b = Ok cs.
Proof. intros H. unfold write_masters. destruct (family_total b OStyles UNamed FMasterPage H) as (? & ->); [discriminate|]. cbn. eauto. Qed.
Lemma valids_total vs : Forall valid_ok vs -> exists cs, write_validations vs = Ok cs.
Proof.
  intros H. assert (V : exists cs, valids_calls vs = Ok cs).
  { induction H as [|v vs (U & _) _ IH]; [cbn; eauto|]. cbn [valids_calls]. unfold valid_calls. destruct (cellref_text_ok _ U) as (t & -> & _). cbn [bind].
    destruct IH as (c & ->). cbn. eauto. }
  unfold write_validations. destruct vs; [eauto|]. destruct V as (c & ->). cbn. eauto.
Qed.
Lemma sheets_out ds l : Forall (fun sh => inside_grid sh /\ row_groups_writable sh) l ->
  (Forall nothing_overlaps l /\ exists cs, sheets_calls ds l = Ok cs) \/ (~ Forall nothing_overlaps l /\ sheets_calls ds l = Err).
Proof.
  induction 1 as [|sh l (I & G) _ IH]; [left; cbn; eauto|]. cbn [sheets_calls].
  destruct (sheet_out ds sh I G) as [(N & cs & ->)|(N & ->)].
  - cbn [bind]. destruct IH as [(Ns & cs' & ->)|(Ns & ->)]; [left|right]; cbn; split; eauto. intros F. inversion F; contradiction.
  - right. split; [|reflexivity]. intros F. inversion F; contradiction.
Qed.
Lemma body_out w : Forall valid_ok (all_valids w) -> Forall (fun sh => inside_grid sh /\ row_groups_writable sh) (wb_sheets w) ->
  (Forall nothing_overlaps (wb_sheets w) /\ exists cs, write_body w = Ok cs) \/ (~ Forall nothing_overlaps (wb_sheets w) /\ write_body w = Err).
Proof.
  intros V S. unfold write_body. fold (all_valids w). destruct (valids_total _ V) as (v & ->). cbn [bind].
  destruct (sheets_out (wb_defaults w) (wb_sheets w) S) as [(N & cs & ->)|(N & ->)]; [left|right]; cbn; split; eauto.
Qed.
Lemma tree_with_impl (V V' : cvalue -> Prop) : (forall v, V v -> V' v) -> forall t, tree_with V t -> tree_with V' t.
Proof.
  intros H. induction t as [v|k l IH] using tree_rect'; [exact (H v)|]. rewrite !tree_with_node. intros (A & B). split; [exact A|].
  rewrite Forall_forall in *. intros kv I. destruct (B kv I). split; auto.
Qed.
Lemma ok_shape t : settings_ok t -> settings_shape t.
Proof. intros (l & E & T & F). exists l. split; [exact E|]. split; [exact (tree_with_impl _ _ (fun _ _ => I) _ T)|exact F]. Qed.
Lemma settings_total c : sound c -> settings_ok (plain c) -> exists cs, write_settings c = Ok cs.
Proof.
  intros S O. destruct (settings_written [] c S (ok_shape _ O)) as (cs & E). unfold write_ods_settings in E. apply bind_ok in E as (s & -> & _). eauto.
Qed.
Lemma ods_settings_total ns c : sound c -> settings_ok (plain c) -> exists cs, write_ods_settings ns c = Ok cs.
Proof. intros S O. exact (settings_written ns c S (ok_shape _ O)). Qed.
