(** The order of attributes and attributes the library does not know change nothing that is read. *)
From Coq Require Import Permutation.
From Verif Require Import Base Lib NumModel XmlModel XmlSpec CellModel CellIoModel DrawModel HeaderModel TableModel CloneModel BookModel ScriptModel ValidModel StyleModel MetaModel ConfigModel WorkModel TermSpec TermProofs
  SkipSpec SkipProofs PanicSpec IndentSpec ForeignSpec ForeignProofs ForeignProps JumbleSpec JumbleAttrs JumbleProofs JumbleFiles.

Theorem C79_ods ign rep c0 f f' : rearranged (fl_meta f) (fl_meta f') -> rearranged (fl_settings f) (fl_settings f') -> rearranged (fl_styles f) (fl_styles f') -> rearranged (fl_content f) (fl_content f') ->
  WorkModel.read_ods ign rep c0 f = WorkModel.read_ods ign rep c0 f'.
Proof.
  intros A B C D. unfold WorkModel.read_ods. rewrite (file_rearranged _ (work0 c0) _ _ meta_file_deaf meta_file_shrinks A).
  destruct (read_file meta_file_step (work0 c0) (fl_meta f')) as [w| |]; [|reflexivity|reflexivity]. cbn [bind]. rewrite (file_rearranged _ w _ _ settings_file_deaf settings_file_shrinks B).
  destruct (read_file settings_file_step w (fl_settings f')) as [w1| |]; [|reflexivity|reflexivity]. cbn [bind]. rewrite (file_rearranged _ w1 _ _ styles_file_deaf styles_file_shrinks C).
  destruct (read_file styles_file_step w1 (fl_styles f')) as [w2| |]; [|reflexivity|reflexivity]. cbn [bind]. now rewrite (file_rearranged _ w2 _ _ (content_deaf ign) (content_shrinks ign) D).
Qed.
Theorem C79_ods_only ign rep c0 f f' : rearranged (fl_content f) (fl_content f') -> read_ods_only ign rep c0 f = read_ods_only ign rep c0 f'.
Proof. intros D. unfold read_ods_only. now rewrite (file_rearranged _ _ _ _ (content_deaf ign) (content_shrinks ign) D). Qed.
Theorem C79_fods ign rep c0 t t' : rearranged t t' ->
  WorkModel.read_fods ign rep c0 t = WorkModel.read_fods ign rep c0 t' /\ read_fods_only ign rep c0 t = read_fods_only ign rep c0 t'.
Proof.
  intros A. unfold WorkModel.read_fods, read_fods_only. split.
  - now rewrite (file_rearranged _ _ _ _ (fods_deaf ign) (fods_shrinks ign) A).
  - now rewrite (file_rearranged _ _ _ _ (fods_only_deaf ign) (fods_only_shrinks ign) A).
Qed.

(** ** One tag of a file written in another way *)

Lemma nested_jumble evs : forall st, nested st evs = true -> forallb no_empty_script evs = true -> jumble st evs evs.
Proof.
  induction evs as [|e evs IH]; intros st N S; [constructor|]. cbn [forallb] in S. apply andb_true_iff in S as (S0 & S). destruct e; cbn [nested] in N; try (constructor; now apply IH).
  - apply jb_start; [now left|now apply IH].
  - apply jb_empty; [|now left|now apply IH]. intros ->. cbn [no_empty_script] in S0. now rewrite str_eqb_refl in S0.
  - destruct st as [|m st]; [discriminate|]. apply andb_true_iff in N as (E & N). apply str_eqb_eq in E. subst m. apply jb_end. now apply IH.
Qed.
Lemma past_jumble ea rest : forall st r r', nested st (ea ++ rest) = true -> forallb no_empty_script ea = true -> jumble (left_open st ea) r r' -> jumble st (ea ++ r) (ea ++ r').
Proof.
  induction ea as [|e ea IH]; intros st r r' N S H; [exact H|]. cbn [app forallb] in *. apply andb_true_iff in S as (S0 & S). destruct e; cbn [nested left_open] in *; try (constructor; now apply IH).
  - apply jb_start; [now left|now apply IH].
  - apply jb_empty; [|now left|now apply IH]. intros ->. cbn [no_empty_script] in S0. now rewrite str_eqb_refl in S0.
  - destruct st as [|m st]; [discriminate|]. apply andb_true_iff in N as (E & N). apply str_eqb_eq in E. subst m. apply jb_end. now apply IH.
Qed.
(** [a] ends with a tag; then comes a start tag or an empty element, [x] in one file and [x'] in the other; all elements that are open there are structural. *)
Theorem C79_tag (empty : bool) a x x' b ea n at0 at1 evs : lex (XmlModel.MText []) a = Ok ea -> no_text_last ea -> forallb structural (left_open [] ea) = true ->
  lex (XmlModel.MText []) x = Ok [if empty then EEmpty n at0 else EStart n at0] -> lex (XmlModel.MText []) x' = Ok [if empty then EEmpty n at1 else EStart n at1] -> jumbled n at0 at1 ->
  read_events (a ++ x ++ b) = Ok evs -> forallb no_empty_script evs = true -> rearranged (a ++ x ++ b) (a ++ x' ++ b).
Proof.
  intros A L O X X' J R S. pose proof R as R0. unfold read_events in R. apply bind_ok in R as (l & E & R). destruct (nested [] l) eqn:N; [|discriminate]. injection R as ->.
  assert (LX : forall y, no_text_last [if empty then EEmpty n y else EStart n y]) by (destruct empty; intros; exact I).
  rewrite (lex_cut_tag a _ ea _ A L), (lex_cut_tag x _ _ _ X (LX _)) in E. apply bind_ok in E as (ec & EB & E). injection E as <-. apply bind_ok in EB as (eb & EB & EC). injection EC as <-.
  rewrite !forallb_app in S. apply andb_true_iff in S as (S1 & S2). apply andb_true_iff in S2 as (S2 & S3).
  exists (ea ++ [if empty then EEmpty n at0 else EStart n at0] ++ eb), (ea ++ [if empty then EEmpty n at1 else EStart n at1] ++ eb). split; [exact R0|]. split.
  - unfold read_events. rewrite (lex_cut_tag a _ ea _ A L), (lex_cut_tag x' _ _ _ X' (LX _)), EB. cbn [bind].
    rewrite (nested_cut ea ([if empty then EEmpty n at0 else EStart n at0] ++ eb) _ [] N); [reflexivity|]. apply nested_past in N. destruct empty; exact N.
  - eapply past_jumble; [exact N|exact S1|]. apply nested_past in N. destruct empty; cbn [app nested] in *.
    + apply jb_empty; [|now right|now apply nested_jumble]. intros ->. cbn in S2. discriminate.
    + apply jb_start; [now right|now apply nested_jumble].
Qed.
Theorem C79_flat ign rep c0 (empty : bool) a x x' b ea n at0 at1 evs : lex (XmlModel.MText []) a = Ok ea -> no_text_last ea -> forallb structural (left_open [] ea) = true ->
  lex (XmlModel.MText []) x = Ok [if empty then EEmpty n at0 else EStart n at0] -> lex (XmlModel.MText []) x' = Ok [if empty then EEmpty n at1 else EStart n at1] -> jumbled n at0 at1 ->
  read_events (a ++ x ++ b) = Ok evs -> forallb no_empty_script evs = true -> WorkModel.read_fods ign rep c0 (a ++ x ++ b) = WorkModel.read_fods ign rep c0 (a ++ x' ++ b).
Proof. intros. apply C79_fods. eapply C79_tag; eauto. Qed.
(** One attribute more that is not looked at, anywhere among the others. *)
Theorem C79_unknown n ks a b kv : looked_at n = Some ks -> existsb (str_eqb (fst kv)) ks = false -> NoDup (map fst (kept ks (a ++ b))) -> Forall attr_calm (kept ks (a ++ b)) ->
  jumbled n (a ++ b) (a ++ kv :: b).
Proof.
  intros L K D C. exists ks. split; [exact L|]. split; [|split; [exact D|exact C]]. unfold kept. rewrite !filter_app. cbn [filter]. rewrite K. apply Permutation_refl.
Qed.
(** The same attributes in another order. *)
Theorem C79_order n ks a a' : looked_at n = Some ks -> Permutation a a' -> NoDup (map fst a) -> Forall attr_calm a -> jumbled n a a'.
Proof.
  intros L P D C. exists ks. split; [exact L|]. split; [|split].
  - induction P; unfold kept in *; cbn [filter].
    + constructor.
    + cbn [map] in D. inversion D; inversion C; subst. destruct (existsb _ ks); [apply perm_skip|]; now apply IHP.
    + destruct (existsb (str_eqb (fst y)) ks), (existsb (str_eqb (fst x)) ks); try apply Permutation_refl. apply perm_swap.
    + eapply perm_trans; [now apply IHP1|]. apply IHP2; [apply (Permutation_NoDup (Permutation_map fst P1)), D|now apply (Permutation_Forall P1)].
  - clear -D. unfold kept. induction a as [|kv a IH]; [constructor|]. cbn [map] in D. inversion D as [|? ? D1 D2]; subst. cbn [filter]. destruct (existsb _ ks); [|now apply IH]. cbn [map]. constructor; [|now apply IH].
    intros X. apply D1. apply in_map_iff in X as (y & <- & Y). apply filter_In in Y as (Y & _). now apply in_map.
  - rewrite Forall_forall in *. intros y Y. apply filter_In in Y as (Y & _). auto.
Qed.

(** ** Examples *)

Definition pick (b : bool) (x y : string) : str := lit (if b then x else y).
Definition tagged (b : bool) : str :=
  lit "<office:document office:version='1.3'><office:meta>" ++ pick b "<meta:user-defined meta:value-type='float' x:y='1' meta:name='N'>" "<meta:user-defined meta:name='N' meta:value-type='float'>"
  ++ lit "7</meta:user-defined></office:meta><office:settings><config:config-item-set config:name='ooo:view-settings'>"
  ++ pick b "<config:config-item config:type='string' config:name='A'>" "<config:config-item config:name='A' config:type='string'>" ++ lit "x</config:config-item></config:config-item-set></office:settings><office:body>"
  ++ pick b "<table:table table:print='false' loext:x='' table:name='S'>" "<table:table table:name='S' table:print='false'>"
  ++ pick b "<table:table-column xml:id='i' table:style-name='co1' table:number-columns-repeated='2'/>" "<table:table-column table:number-columns-repeated='2' table:style-name='co1'/>"
  ++ pick b "<table:table-row x:y='2' table:style-name='ro1'>" "<table:table-row table:style-name='ro1'>"
  ++ pick b "<table:table-cell calcext:value-type='float' office:value='7' office:value-type='float' table:style-name='ce1'>" "<table:table-cell table:style-name='ce1' office:value-type='float' office:value='7'>"
  ++ lit "<text:p>7</text:p></table:table-cell></table:table-row></table:table></office:body></office:document>".
Ltac calm_attr := split; [cbn [fst]; intros E; vm_compute in E; discriminate|split; cbn [fst]; intros E; repeat destruct E as [E|E]; vm_compute in E; discriminate].
Ltac show_jumbled := eexists; split; [vm_compute; reflexivity|]; split; [|split].
Lemma tagged_rearranged : rearranged (tagged true) (tagged false).
Proof.
  unfold rearranged.
  assert (A : exists x, read_events (tagged true) = Ok x) by (eexists; vm_compute; reflexivity). destruct A as (x & A).
  assert (B : exists y, read_events (tagged false) = Ok y) by (eexists; vm_compute; reflexivity). destruct B as (y & B).
  exists x, y. split; [exact A|]. split; [exact B|]. vm_compute in A, B. injection A as <-. injection B as <-.
  repeat first [apply jb_nil | apply jb_end | apply jb_text | apply jb_start; [first [left; reflexivity|right; split; [vm_compute; reflexivity|show_jumbled]]|]
    | apply jb_empty; [discriminate|first [left; reflexivity|right; split; [vm_compute; reflexivity|show_jumbled]]|]].
  all: try (match goal with |- NoDup _ => vm_compute; repeat constructor; intros E; cbn in E; repeat destruct E as [E|E]; (discriminate || contradiction) end).
  all: try (match goal with |- Forall _ ?l => let v := eval vm_compute in l in change (Forall attr_calm v) end; repeat apply Forall_cons; try apply Forall_nil; calm_attr).
  all: match goal with |- Permutation ?l ?l' => let v := eval vm_compute in l in let v' := eval vm_compute in l' in change (Permutation v v') end.
  all: first [apply Permutation_refl | apply perm_swap | eapply perm_trans; [apply Permutation_rev|cbn [rev app]; apply Permutation_refl]].
Qed.
Example C79_fods_ex : WorkModel.read_fods false true (CBranch KSet cm_new) (tagged true) = WorkModel.read_fods false true (CBranch KSet cm_new) (tagged false)
  /\ (let* w := WorkModel.read_fods false true (CBranch KSet cm_new) (tagged true) in
      Ok (map (fun s => (tb_name s, tb_print s, map (fun e => (c_style (snd e), CellIoModel.value_type (c_value (snd e)))) (tb_cells s))) (wb_sheets w))) = Ok [(lit "S", false, [(Some (lit "ce1"), TyNumber)])].
Proof. split; [exact (proj1 (C79_fods _ _ _ _ _ tagged_rearranged))|vm_compute; reflexivity]. Qed.
Example C79_unknown_ex : jumbled (lit "table:table-row") [(lit "table:style-name", lit "ro1")] [(lit "x:y", lit "1"); (lit "table:style-name", lit "ro1")].
Proof.
  apply (C79_unknown _ (keys_of (lit "table:table-row")) [] [(lit "table:style-name", lit "ro1")] (lit "x:y", lit "1")); [vm_compute; reflexivity|vm_compute; reflexivity|vm_compute; repeat constructor; intros []|].
  change (kept _ _) with [(lit "table:style-name", lit "ro1")]. repeat apply Forall_cons; try apply Forall_nil; calm_attr.
Qed.
Example C79_order_ex : jumbled (lit "style:map") [(lit "style:condition", lit "c"); (lit "style:apply-style-name", lit "s")] [(lit "style:apply-style-name", lit "s"); (lit "style:condition", lit "c")].
Proof.
  apply (C79_order _ (keys_of (lit "style:map"))); [vm_compute; reflexivity|apply perm_swap|vm_compute; repeat constructor; intros E; cbn in E; repeat destruct E as [E|E]; (discriminate || contradiction)|].
  repeat apply Forall_cons; try apply Forall_nil; calm_attr.
Qed.

(** ** What is not true *)

Definition opened_with (t : string) : res nat :=
  let* w := WorkModel.read_fods false true (CBranch KSet cm_new) (lit "<office:document><office:body><table:content-validations><table:content-validation " ++ lit t
    ++ lit "></table:content-validation></table:content-validations></office:body></office:document>") in
  Ok (length (wb_sheets w)).
(** "In any order", if a value panics: which of two wrong attributes comes first decides whether there is an error or a panic. *)
Theorem C79_panic_refuted : opened_with "table:base-cell-address='!' table:condition='ab'" = Err /\ opened_with "table:condition='ab' table:base-cell-address='!'" = Panic.
Proof. split; vm_compute; reflexivity. Qed.
(** "Any attribute the library does not know": the properties of a style are kept, known or not. *)
Definition cell_props (t : string) : res (list (str * attrs)) :=
  let* w := WorkModel.read_fods false true (CBranch KSet cm_new) (lit "<office:document><office:automatic-styles><style:style style:name='ce1' style:family='table-cell'><style:table-cell-properties " ++ lit t
    ++ lit "/></style:style></office:automatic-styles></office:document>") in
  Ok (flat_map (fun p => match nm_body (snd p) with BStyle _ _ s => [(fst p, sb_main s)] | _ => [] end) (bk_styles (sk_book (WorkModel.wb_styles w)) FCell)).
Theorem C79_kept_refuted : cell_props "fo:color='#fff'" = Ok [(lit "ce1", [(lit "fo:color", lit "#fff")])]
  /\ cell_props "fo:color='#fff' x:y='1'" = Ok [(lit "ce1", [(lit "fo:color", lit "#fff"); (lit "x:y", lit "1")])].
Proof. split; vm_compute; reflexivity. Qed.

Print Assumptions C79_ods.
Print Assumptions C79_ods_only.
Print Assumptions C79_fods.
Print Assumptions C79_tag.
Print Assumptions C79_flat.
Print Assumptions C79_unknown.
Print Assumptions C79_order.
Print Assumptions C79_panic_refuted.
Print Assumptions C79_kept_refuted.
