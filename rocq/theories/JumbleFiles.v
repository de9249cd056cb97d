(** Lemmas about readers for which the order of attributes does not matter: tables and files. *)
From Coq Require Import Permutation.
From Verif Require Import Base Lib NumModel XmlModel XmlSpec XmlProofs CellModel CellIoModel DrawModel HeaderModel TableModel CloneModel BookModel ScriptModel ValidModel StyleModel MetaModel ConfigModel WorkModel
  TermModel TermSpec TermProofs PanicSpec IndentSpec ForeignSpec ForeignProofs JumbleSpec JumbleAttrs JumbleProofs.

(** ** Tables *)

Lemma is_text_raw n : is_text_tag n = true -> looked_at n = None.
Proof. unfold is_text_tag. intros H. apply orb_true_iff in H as [H|H]; apply str_eqb_eq in H; subst n; vm_compute; reflexivity. Qed.
Lemma not_text n a a' : jumbled n a a' -> is_text_tag n = false.
Proof. intros J. destruct (is_text_tag n) eqn:E; [destruct (raw_tag _ _ _ (is_text_raw _ E) J)|reflexivity]. Qed.
Lemma not_among n a a' l : jumbled n a a' -> forallb (fun t => match looked_at t with None => true | _ => false end) l = true -> existsb (str_eqb n) l = false.
Proof. intros J K. destruct (existsb (str_eqb n) l) eqn:E; [destruct (raw_tag _ _ _ (exists_raw _ _ E K) J)|reflexivity]. Qed.
Lemma sub_twin m e e' st : twin e e' -> (forallb structural st = false -> e = e') -> sub_in m st -> sub_step m e = sub_step m e'.
Proof.
  intros W Q I0. destruct m; cbn [sub_in] in I0.
  - destruct W as [e|n b b' J|n b b' J]; try reflexivity; cbn [sub_step]; rewrite (not_text _ _ _ J); names J n; reflexivity.
  - now rewrite (Q (structural_not_in _ _ I0 (text_tag_not _))).
  - destruct I0 as (I0 & S). now rewrite (Q (structural_not_in _ _ I0 S)).
  - destruct W as [e|n b b' J|n b b' J]; try reflexivity; cbn [sub_step]; names J n; reflexivity.
  - now rewrite (Q (structural_not_in _ _ I0 (frame_tag_not _))).
  - destruct W as [e|n b b' J|n b b' J]; try reflexivity; cbn [sub_step]; rewrite (not_text _ _ _ J); names J n; reflexivity.
  - now rewrite (Q (structural_not_in _ t_data I0 eq_refl)).
  - destruct I0 as (I0 & S). now rewrite (Q (structural_not_in _ _ I0 S)).
Qed.
Lemma cell_twin tag x m e e' st : twin e e' -> (forallb structural st = false -> e = e') -> cell_in m st -> cell_step tag x m e = cell_step tag x m e'.
Proof.
  intros W Q I0. destruct m as [|pa pc ps|q]; cbn [cell_in cell_step] in *.
  - destruct W as [e|n b b' J|n b b' J]; try reflexivity; names J n; reflexivity.
  - now rewrite (Q (structural_not_in _ t_p I0 eq_refl)).
  - rewrite (sub_twin _ _ _ _ W Q I0). reflexivity.
Qed.
Lemma group_alike n a a' : jumbled n a a' -> keys_of n = [a_disp] -> forall k, read_group a k = read_group a' k.
Proof. intros J K k. apply jumbled_keys in J. rewrite K in J. unfold read_group. rewrite !table_fold. now rewrite (folda_alike _ _ _ _ group_steady J true). Qed.
Lemma row_alike a a' : jumbled t_row a a' -> forall k m, read_row a k m = read_row a' k m.
Proof. intros J k m. unfold read_row. rewrite !table_fold. now rewrite (folda_alike _ _ _ _ row_steady (jumbled_keys _ _ _ J) (1, None)). Qed.
Lemma col_alike a a' : jumbled t_column a a' -> forall k m, read_col a k m = read_col a' k m.
Proof. intros J k m. unfold read_col. rewrite !table_fold. now rewrite (folda_alike _ _ _ _ col_steady (jumbled_keys _ _ _ J) (1, None)). Qed.
Lemma cell_alike n a a' : jumbled n a a' -> keys_of n = keys_of t_cell -> forall s, cell_read_attrs s a = cell_read_attrs s a'.
Proof. intros J K s. apply jumbled_keys in J. rewrite K in J. rewrite !cell_fold. exact (folda_alike _ _ _ _ cell_steady J s). Qed.
Lemma table_twin ign s m e e' st : twin e e' -> (forallb structural st = false -> e = e') -> table_in m st -> table_step ign s m e = table_step ign s m e'.
Proof.
  intros W Q I0. destruct m as [|tag x c|n stk]; cbn [table_in table_step] in *.
  - destruct W as [e|n a a' J|n a a' J]; [reflexivity| |]; unfold table_event; rewrite (not_among n a a' (prelude ++ epilogue) J ltac:(vm_compute; reflexivity)).
    + name_is J n t_cgroup; [now rewrite (group_alike _ _ _ J ltac:(vm_compute; reflexivity))|]. name_is J n t_hcols; [reflexivity|].
      name_is J n t_rgroup; [now rewrite (group_alike _ _ _ J ltac:(vm_compute; reflexivity))|]. name_is J n t_hrows; [reflexivity|]. name_is J n t_row; [now rewrite (row_alike _ _ J)|].
      name_is J n t_cell; [now rewrite (cell_alike _ _ _ J ltac:(vm_compute; reflexivity))|]. name_is J n t_covered; [now rewrite (cell_alike _ _ _ J ltac:(vm_compute; reflexivity))|]. reflexivity.
    + name_is J n t_column; [now rewrite (col_alike _ _ J)|].
      name_is J n t_cell; [now rewrite (cell_alike _ _ _ J ltac:(vm_compute; reflexivity))|]. name_is J n t_covered; [now rewrite (cell_alike _ _ _ J ltac:(vm_compute; reflexivity))|]. reflexivity.
  - destruct I0 as (_ & I0). rewrite (cell_twin _ _ _ _ _ _ W Q I0). reflexivity.
  - destruct I0 as (I0 & S). rewrite (Q (structural_not_in _ _ I0 S)). reflexivity.
Qed.
Lemma table_loop_jumble ign evs : forall s m st evs', table_in m st -> jumble st evs evs' -> rel (table_loop ign s m evs) (table_loop ign s m evs').
Proof.
  induction evs as [|e evs IH]; intros s m st evs' I0 T; [inversion T; subst; exact I|]. destruct (jumble_inv _ _ _ _ T) as (e' & r' & -> & W & Q & T' & F).
  cbn [table_loop]. rewrite <- (table_twin ign s m e e' st W Q I0). destruct (table_step ign s m e) as [[(s' & m')|s']| |] eqn:E; cbn [bind]; [|eapply rel_ok, T'|exact I|exact I]. eapply IH; [eapply table_keeps; eauto|exact T'].
Qed.
Lemma table_attrs_alike a a' : jumbled t_table a a' -> forall s, TableModel.fold_attrs table_attr s a = TableModel.fold_attrs table_attr s a'.
Proof. intros J s. rewrite !table_fold. exact (folda_alike _ _ _ _ table_steady (jumbled_keys _ _ _ J) s). Qed.
Lemma table_jumble ign a a' st evs evs' : a = a' \/ jumbled t_table a a' -> jumble st evs evs' -> rel (read_table ign (EStart t_table a :: evs)) (read_table ign (EStart t_table a' :: evs')).
Proof.
  intros A T. unfold read_table. assert (E : forall s, TableModel.fold_attrs table_attr s a = TableModel.fold_attrs table_attr s a') by (intros s; destruct A as [-> |J]; [reflexivity|now apply table_attrs_alike]).
  rewrite E. apply bind_rel_same. intros sh. eapply bind_rel; [eapply table_loop_jumble; [exact I|exact T]|]. intros. rel_parts.
Qed.
Lemma body_deaf ign : deaf (body_step ign).
Proof.
  intros s e e' st r r' W N T. unfold body_step. destruct W as [e|n a a' J|n a a' J]; cbn [on_tag].
  - destruct (on_tag e) as [((n & a) & b)|] eqn:O; [|rel_parts].
    destruct (negb b && str_eqb n t_valids); [eapply bind_rel; [eapply valids_jumble; [exact T|auto|auto]|intros; rel_parts]|].
    destruct (negb b && str_eqb n t_table) eqn:E0.
    { apply andb_true_iff in E0 as (B & E0). apply str_eqb_eq in E0. subst n. destruct e; cbn in O; try discriminate; injection O as -> -> <-; [|discriminate].
      eapply bind_rel; [eapply table_jumble; [now left|exact T]|intros; rel_parts]. }
    destruct (existsb (str_eqb n) (prelude_tags ++ epilogue_tags)) eqn:E; [|rel_parts].
    eapply bind_rel; [eapply xml_jumble; [now apply body_extras_not|eapply on_tag_in; eauto|exact T]|intros; rel_parts].
  - cbn [negb andb]. rewrite (not_among n a a' (prelude_tags ++ epilogue_tags) J ltac:(vm_compute; reflexivity)).
    destruct (str_eqb n t_valids); [eapply bind_rel; [eapply valids_jumble; [exact T|auto|auto]|intros; rel_parts]|].
    name_is J n t_table; [eapply bind_rel; [eapply table_jumble; [now right|exact T]|intros; rel_parts]|rel_parts].
  - cbn [negb andb]. rewrite (not_among n a a' (prelude_tags ++ epilogue_tags) J ltac:(vm_compute; reflexivity)). rel_parts.
Qed.
Lemma body_jumble ign w st evs evs' : jumble st evs evs' -> rel (read_office_body ign w evs) (read_office_body ign w evs').
Proof. intros T. unfold read_office_body. eapply bind_rel; [eapply (reading_deaf _ _ (body_deaf ign) (body_shrinks ign)); exact T|]. intros. rel_parts. Qed.

(** ** Files *)

Lemma meta_alike {A} n (f : str * str -> A -> res A) a a' : steady (keys_of n) (flip_attr f) -> jumbled n a a' -> forall s, MetaModel.fold_attrs f a s = MetaModel.fold_attrs f a' s.
Proof. intros S J s. rewrite !meta_fold. exact (folda_alike _ _ _ _ S (jumbled_keys _ _ _ J) s). Qed.
Lemma meta_twin e e' s st : twin e e' -> (forallb structural st = false -> e = e') -> meta_in s st -> mstep e s = mstep e' s.
Proof.
  intros W Q I0. destruct s; cbn [meta_in] in I0; [contradiction| | |]; try (destruct I0 as (I0 & S); rewrite (Q (structural_not_in _ _ I0 S)); reflexivity).
  destruct W as [e|n a a' J|n a a' J]; try reflexivity. cbn [mstep]. destruct (find _ all_fields); [reflexivity|].
  name_is J n t_template; [now rewrite (meta_alike _ _ _ _ template_steady J)|]. name_is J n (lit "meta:auto-reload"); [now rewrite (meta_alike _ _ _ _ reload_steady J)|].
  name_is J n t_links; [now rewrite (meta_alike _ _ _ _ links_steady J)|]. name_is J n t_stats; [now rewrite (meta_alike _ _ _ _ stats_steady J)|].
  name_is J n MetaModel.t_user; [now rewrite (meta_alike _ _ _ _ user_steady J)|]. reflexivity.
Qed.
Lemma meta_jumble evs : forall s st evs', meta_in s st -> jumble st evs evs' -> rel (meta_loop s evs) (meta_loop s evs').
Proof.
  induction evs as [|e evs IH]; intros s st evs' I0 T; [inversion T; subst; exact I|]. destruct (jumble_inv _ _ _ _ T) as (e' & r' & -> & W & Q & T' & F).
  cbn [meta_loop]. rewrite <- (meta_twin e e' s st W Q I0). destruct (mstep e s) as [s'| |] eqn:E; cbn [bind]; [|exact I|exact I].
  pose proof (meta_keeps _ _ _ _ I0 F E) as K. destruct s'; [eapply rel_ok, T'|eapply IH; eauto..].
Qed.
Definition get_step (k : str) (o : option str) (kv : str * str) : option str := if str_eqb (fst kv) k then Some (snd kv) else o.
Lemma get_fold k a : forall o, fold_left (get_step k) a o = match ConfigModel.get_attr k a with Some v => Some v | None => o end.
Proof.
  induction a as [|(x & v) a IH]; intros o; [reflexivity|]. cbn [fold_left ConfigModel.get_attr]. rewrite IH. unfold get_step. cbn [fst snd]. destruct (ConfigModel.get_attr k a); [reflexivity|]. destruct (str_eqb x k); reflexivity.
Qed.
Lemma get_steady k ks : existsb (str_eqb k) ks = true -> steady ks (sure (get_step k)).
Proof.
  intros K. split.
  - intros s (x & v) E. unfold sure, get_step. cbn [fst snd] in *. now rewrite (not_key x k ks E K).
  - intros s (x & v) (y & w) _ _ N. unfold sure, get_step. cbn [fst snd bind] in *. destruct (str_eqb x k) eqn:E, (str_eqb y k) eqn:E'; try reflexivity. apply str_eqb_eq in E, E'. congruence.
Qed.
Lemma get_alike n k a a' : jumbled n a a' -> existsb (str_eqb k) (keys_of n) = true -> ConfigModel.get_attr k a = ConfigModel.get_attr k a'.
Proof.
  intros J K. pose proof (sure_alike _ _ _ _ None (get_steady k _ K) (jumbled_keys _ _ _ J)) as E. rewrite !get_fold in E. destruct (ConfigModel.get_attr k a), (ConfigModel.get_attr k a'); congruence.
Qed.
Lemma forallb_perm {A} (p : A -> bool) l l' : Permutation l l' -> forallb p l = forallb p l'.
Proof. induction 1; cbn [forallb]; [reflexivity|congruence|now rewrite !andb_assoc, (andb_comm (p y))|congruence]. Qed.
Lemma forallb_kept ks (p : str * str -> bool) a : (forall kv, existsb (str_eqb (fst kv)) ks = false -> p kv = true) -> forallb p a = forallb p (kept ks a).
Proof. intros H. induction a as [|kv a IH]; [reflexivity|]. cbn [kept filter forallb]. destruct (existsb (str_eqb (fst kv)) ks) eqn:E; cbn [forallb]; [now f_equal|]. now rewrite (H kv E). Qed.
Lemma item_alike a a' : jumbled t_item a a' -> start_item a = start_item a'.
Proof.
  intros J. unfold start_item. rewrite (get_alike _ ConfigModel.a_name _ _ J ltac:(vm_compute; reflexivity)), (get_alike _ ConfigModel.a_type _ _ J ltac:(vm_compute; reflexivity)).
  set (p := fun kv : str * str => negb (str_eqb (fst kv) ConfigModel.a_type) || existsb (str_eqb (snd kv)) value_types).
  assert (E : forallb p a = forallb p a'); [|now rewrite E].
  apply jumbled_keys in J. destruct J as (P & _). rewrite (forallb_kept (keys_of t_item) p a), (forallb_kept (keys_of t_item) p a'); [now apply forallb_perm|..];
    intros (x & v) E; unfold p; cbn [fst snd] in *; now rewrite (not_key x ConfigModel.a_type _ E ltac:(vm_compute; reflexivity)).
Qed.
Lemma config_twin e e' s st : twin e e' -> (forallb structural st = false -> e = e') -> config_in s st -> cstep e s = cstep e' s.
Proof.
  intros W Q I0. destruct s as [c|c [p|] stk]; cbn [config_in] in I0; [contradiction|now rewrite (Q (structural_not_in _ t_item I0 eq_refl))|].
  destruct W as [e|n a a' J|n a a' J]; try reflexivity. cbn [cstep]. unfold cstart. destruct stk as [|f stk]; [contradiction|]. unfold child_kind. destruct (fr_kind f) as [[]|]; names J n;
    first [reflexivity | rewrite (item_alike _ _ J); reflexivity | rewrite (get_alike _ ConfigModel.a_name _ _ J ltac:(vm_compute; reflexivity)); reflexivity].
Qed.
Lemma config_jumble evs : forall s st evs', config_in s st -> jumble st evs evs' -> rel (config_loop s evs) (config_loop s evs').
Proof.
  induction evs as [|e evs IH]; intros s st evs' I0 T; [inversion T; subst; exact I|]. destruct (jumble_inv _ _ _ _ T) as (e' & r' & -> & W & Q & T' & F).
  cbn [config_loop]. rewrite <- (config_twin e e' s st W Q I0). destruct (cstep e s) as [s'| |] eqn:E; cbn [bind]; [|exact I|exact I].
  pose proof (config_keeps _ _ _ _ I0 F E) as K. destruct s'; [eapply rel_ok, T'|eapply IH; eauto].
Qed.
Ltac file_parts W T := repeat match goal with
  | |- rel (if existsb ?f style_sections then _ else _) _ => destruct (existsb f style_sections)
  | |- rel (if ?b then _ else _) _ => destruct b
  | |- rel (bind (on_root _ _ _ _) _) _ => apply bind_rel_same; intro
  | |- rel (bind (reading _ _ scripts_step _ _) _) _ => eapply bind_rel; [eapply (reading_deaf _ _ scripts_deaf scripts_shrinks); exact T|intros]
  | |- rel (bind (doc_step ?o _ _ _) _) _ => eapply bind_rel; [eapply (doc_deaf o); [exact W|eassumption|exact T]|intros]
  | |- rel (bind (meta_loop _ _) _) _ => eapply bind_rel; [eapply meta_jumble; [exact I|exact T]|intros]
  | |- rel (bind (config_loop _ _) _) _ => eapply bind_rel; [eapply config_jumble; [discriminate|exact T]|intros]
  | |- rel (read_office_body _ _ _) _ => eapply body_jumble, T
  | |- rel (Ok _) (Ok _) => eapply rel_ok; eassumption
  end.
Ltac file_deaf := let W := fresh "W" in let T := fresh "T" in let N := fresh "N" in let J := fresh "J" in intros s e e' st r r' W N T; pose proof W as W0;
  destruct W0 as [e|n a a' J|n a a' J]; [destruct e; file_parts W T| |file_parts W T]; 
  repeat match goal with |- context [str_eqb n (lit ?t)] => name_is J n (lit t) end; file_parts W T.
Lemma content_deaf ign : deaf (content_step ign). Proof. unfold content_step. file_deaf. Qed.
Lemma fods_deaf ign : deaf (fods_step ign). Proof. unfold fods_step. file_deaf. Qed.
Lemma fods_only_deaf ign : deaf (fods_only_step ign). Proof. unfold fods_only_step. file_deaf. Qed.
Lemma styles_file_deaf : deaf styles_file_step. Proof. unfold styles_file_step. file_deaf. Qed.
Lemma meta_file_deaf : deaf meta_file_step. Proof. unfold meta_file_step. file_deaf. Qed.
Lemma settings_file_deaf : deaf settings_file_step. Proof. unfold settings_file_step. file_deaf. Qed.
Lemma file_rearranged step w t t' : deaf step -> shrinks step -> rearranged t t' -> read_file step w t = read_file step w t'.
Proof.
  intros D K (evs & evs' & A & A' & T). unfold read_file. rewrite A, A'. cbn [bind]. pose proof (reading_deaf None step D K w _ _ _ T) as R.
  destruct (reading (length evs) None step w evs) as [(p & r)| |], (reading (length evs') None step w evs') as [(p' & r')| |]; cbn in R; try contradiction; [|reflexivity|reflexivity]. destruct R as (-> & _). reflexivity.
Qed.
