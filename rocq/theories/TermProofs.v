(** Lemmas about loops that end. *)
From Verif Require Import Base Lib NumModel XmlModel XmlSpec XmlProofs CellModel CellIoModel HeaderModel TableModel CloneModel BookModel ScriptModel ValidModel StyleModel MetaModel ConfigModel WorkModel TermModel TermSpec.

(** ** What is left is an end of what there was *)

Definition sfx (r evs : list event) : Prop := exists p, evs = p ++ r.
Lemma sfx_refl r : sfx r r. Proof. now exists []. Qed.
Lemma sfx_cons e r evs : sfx r evs -> sfx r (e :: evs). Proof. intros (p & ->). now exists (e :: p). Qed.
Lemma sfx_trans a b c : sfx a b -> sfx b c -> sfx a c. Proof. intros (p & ->) (q & ->). exists (q ++ p). now rewrite app_assoc. Qed.
Lemma sfx_nil r : sfx [] r. Proof. exists r. now rewrite app_nil_r. Qed.
Lemma sfx_length r evs : sfx r evs -> (length r <= length evs)%nat. Proof. intros (p & ->). rewrite app_length. lia. Qed.
#[local] Hint Resolve sfx_refl sfx_cons sfx_nil : core.

Definition shrinks {S} (step : S -> event -> list event -> res (S * list event)) : Prop := forall s e r s' r', step s e r = Ok (s', r') -> sfx r' r.
Lemma reading_sfx {S} stop (step : S -> event -> list event -> res (S * list event)) : shrinks step -> forall n s evs x r, reading n stop step s evs = Ok (x, r) -> sfx r evs.
Proof.
  intros K. induction n as [|n IH]; intros s evs x r H; [destruct evs; [injection H as <- <-; auto|discriminate]|]. destruct evs as [|e evs]; [injection H as <- <-; auto|]. cbn [reading] in H.
  destruct (match e, stop with EEnd t, Some q => str_eqb t q | _, _ => false end); [injection H as <- <-; auto|].
  apply bind_ok in H as ((s' & r') & E & H). apply K in E. apply IH in H. apply sfx_cons. eapply sfx_trans; eauto.
Qed.
Lemma top_add_ok x st s : top_add x st = Ok s -> s <> []. Proof. destruct st; [discriminate|]. intros H. injection H as <-. discriminate. Qed.
Lemma xml_loop_sfx super evs : forall st x r, read_xml_loop super st evs = Ok (x, r) -> sfx r evs.
Proof.
  induction evs as [|e evs IH]; intros st x r H; cbn [read_xml_loop] in H; [destruct st; [discriminate|]; injection H as <- <-; auto|].
  destruct e; repeat match type of H with
    | (let* _ := _ in _) = _ => apply bind_ok in H as (? & _ & H)
    | (if ?b then _ else _) = _ => destruct b
    | match ?st with [] => _ | _ :: _ => _ end = _ => destruct st
    end; try discriminate; try (injection H as <- <-); try (apply IH in H); auto.
Qed.
Lemma xml_sfx n a b evs x r : read_xml n a b evs = Ok (x, r) -> sfx r evs.
Proof. unfold read_xml. destruct b; [intros H; injection H as <- <-; auto|apply xml_loop_sfx]. Qed.
Lemma para_sfx super a evs : forall pc st t r, para_loop super a pc st evs = Ok (t, r) -> sfx r evs.
Proof.
  induction evs as [|e evs IH]; intros pc st t r H; cbn [para_loop] in H; [injection H as <- <-; auto|].
  apply bind_ok in H as ([[pc' st']|t'] & _ & H); [apply IH in H; auto|injection H as <- <-; auto].
Qed.
Lemma text_sfx n a b evs t r : read_text_or_tag n a b evs = Ok (t, r) -> sfx r evs.
Proof. unfold read_text_or_tag. destruct b; [intros H; injection H as <- <-; auto|apply para_sfx]. Qed.
Lemma message_sfx {T} (ty : option (str -> res T)) m0 tag a b evs m r : read_message ty m0 tag a b evs = Ok (m, r) -> sfx r evs.
Proof.
  unfold read_message. intros H. apply bind_ok in H as (x & _ & H). apply bind_ok in H as ((t & r') & E & H). apply text_sfx in E. destruct t; try discriminate; injection H as <- <-; exact E.
Qed.
Lemma valids_sfx n : forall evs v bk x r, read_valids n evs v bk = Ok (x, r) -> sfx r evs.
Proof.
  induction n as [|n IH]; intros evs v bk x r H; [destruct evs; [injection H as <- <-; auto|discriminate]|]. destruct evs as [|e evs]; [injection H as <- <-; auto|]. cbn [read_valids] in H.
  assert (M : forall r', sfx r' evs -> sfx r r' -> sfx r (e :: evs)) by (intros r' A B; apply sfx_cons; eapply sfx_trans; eauto).
  destruct e; try (apply IH in H; auto; fail).
  - destruct (str_eqb n0 t_valid); [apply bind_ok in H as (w & _ & H); apply bind_ok in H as ((b1 & n1) & _ & H); apply IH in H; auto|].
    destruct (str_eqb n0 t_err); [apply bind_ok in H as ((m & r') & E & H); apply message_sfx in E; apply IH in H; eauto|].
    destruct (str_eqb n0 t_help); [apply bind_ok in H as ((m & r') & E & H); apply message_sfx in E; apply IH in H; eauto|]. apply IH in H; auto.
  - destruct (str_eqb n0 t_err); [apply bind_ok in H as ((m & r') & E & H); apply message_sfx in E; apply IH in H; eauto|].
    destruct (str_eqb n0 t_help); [apply bind_ok in H as ((m & r') & E & H); apply message_sfx in E; apply IH in H; eauto|]. apply IH in H; auto.
  - destruct (str_eqb n0 t_valid); [apply bind_ok in H as ((b1 & n1) & _ & H); apply IH in H; auto|]. destruct (str_eqb n0 t_valids); [injection H as <- <-; auto|]. apply IH in H; auto.
Qed.
(** A step by cases; what is left is what there was, or what a loop inside has left. *)
Ltac same_rest := repeat match goal with
  | H : (let* _ := _ in _) = Ok _ |- _ => apply bind_ok in H as (? & ? & H)
  | H : (let (_, _) := ?p in _) = Ok _ |- _ => destruct p
  | H : (if ?b then _ else _) = Ok _ |- _ => destruct b
  | H : match ?o with Some _ => _ | None => _ end = Ok _ |- _ => destruct o
  | H : Ok _ = Ok _ |- _ => injection H as <- <-
  | p : (_ * _)%type |- _ => destruct p
  | H : Err = Ok _ |- _ => discriminate H
  end; auto.
Lemma font_shrinks : shrinks font_step. Proof. intros s e r s' r' H. unfold font_step in H. destruct (on_tag e) as [((n & a) & b)|]; same_rest. Qed.
Lemma style_shrinks f : shrinks (style_step f).
Proof. intros s e r s' r' H. unfold style_step in H. destruct (on_tag e) as [((n & a) & b)|]; [|same_rest]. destruct f; same_rest. Qed.
Lemma fonts_sfx o b evs x r : read_fonts o b evs = Ok (x, r) -> sfx r evs.
Proof. unfold read_fonts. intros H. apply bind_ok in H as ((p & r') & E & H). injection H as <- <-. eapply reading_sfx; [apply font_shrinks|exact E]. Qed.
Lemma style_sfx f o u tag a b bk evs x r : read_style f o u tag a b bk evs = Ok (x, r) -> sfx r evs.
Proof.
  unfold read_style. destruct (copy_style_attr a). destruct b; intros H; [same_rest|]. apply bind_ok in H as ((p & r') & E & H). apply reading_sfx in E; [|apply style_shrinks].
  destruct (fst p); [apply bind_ok in H as (b' & _ & H)|]; injection H as <- <-; exact E.
Qed.
Lemma style_style_sfx todo : forall o u tag a b bk evs x r, read_style_style todo o u tag a b bk evs = Ok (x, r) -> sfx r evs.
Proof.
  induction todo as [|(k & v) todo IH]; intros o u tag a b bk evs x r H; cbn [read_style_style] in H; [injection H as <- <-; auto|]. destruct (str_eqb k k_family); [|eapply IH; eauto].
  destruct (family_of (raw v)); [|discriminate]. apply bind_ok in H as ((b' & r') & E & H). apply style_sfx in E. apply IH in H. eapply sfx_trans; eauto.
Qed.
Lemma part_shrinks ty : shrinks (match ty with PTextPart | PCurrency | PFill => text_step | PNumber => number_step | _ => skip_step end).
Proof. intros s e r s' r' H. destruct ty; unfold text_step, number_step, skip_step in H; try (same_rest; fail); destruct e; same_rest. Qed.
Lemma part_sfx ty tag a b evs x r : read_part ty tag a b evs = Ok (x, r) -> sfx r evs.
Proof.
  unfold read_part. destruct b; intros H; [same_rest|]. apply bind_ok in H as ((p & r') & E & H). injection H as <- <-. eapply reading_sfx; [apply part_shrinks|exact E].
Qed.
Lemma format_shrinks : shrinks format_step.
Proof.
  intros s e r s' r' H. unfold format_step in H. destruct (on_tag e) as [((n & a) & b)|]; [|same_rest]. destruct (part_of n).
  - apply bind_ok in H as ((q & r2) & E & H). injection H as <- <-. eapply part_sfx, E.
  - destruct s. same_rest.
Qed.
Lemma format_sfx f o u tag a bk evs x r : read_format f o u tag a bk evs = Ok (x, r) -> sfx r evs.
Proof.
  unfold read_format. destruct (copy_style_attr a). intros H. apply bind_ok in H as ((p & r') & E & H). apply bind_ok in H as (b' & _ & H). injection H as <- <-. eapply reading_sfx; [apply format_shrinks|exact E].
Qed.
Lemma page_shrinks : shrinks page_step.
Proof. intros (([us p h f] & hd) & ft) e r s' r' H. unfold page_step in H. destruct e; same_rest. Qed.
Lemma page_sfx a bk evs x r : read_page a bk evs = Ok (x, r) -> sfx r evs.
Proof.
  unfold read_page. destruct (fold_left page_attr a _). intros H. apply bind_ok in H as ((q & r') & E & H). apply bind_ok in H as (b' & _ & H). injection H as <- <-. eapply reading_sfx; [apply page_shrinks|exact E].
Qed.
Lemma hf_shrinks : shrinks hf_step.
Proof.
  intros s e r s' r' H. unfold hf_step in H. destruct (on_tag e) as [((n & a) & b)|]; [|same_rest]. destruct s as ([d le ce ri co] & tc).
  destruct (str_eqb n t_left); [apply bind_ok in H as ((x & r2) & E & H); apply xml_sfx in E; same_rest|].
  destruct (str_eqb n t_center); [apply bind_ok in H as ((x & r2) & E & H); apply xml_sfx in E; same_rest|].
  destruct (str_eqb n t_right); [apply bind_ok in H as ((x & r2) & E & H); apply xml_sfx in E; same_rest|].
  destruct (str_eqb n t_p || str_eqb n t_h); [apply bind_ok in H as ((x & r2) & E & H); apply text_sfx in E|]; same_rest.
Qed.
Lemma hf_sfx tag a evs x r : read_hf tag a evs = Ok (x, r) -> sfx r evs.
Proof.
  unfold read_hf. intros H. apply bind_ok in H as (h & _ & H). apply bind_ok in H as ((p & r') & E & H). apply reading_sfx in E; [|apply hf_shrinks]. destruct (snd p) as ([d le ce ri co] & tc). injection H as <- <-. exact E.
Qed.
Lemma master_shrinks : shrinks master_step.
Proof. intros s e r s' r' H. unfold master_step in H. destruct e; try (same_rest; fail). destruct (hslot_of n); [|same_rest]. apply bind_ok in H as ((x & r2) & E & H). apply hf_sfx in E. same_rest. Qed.
Lemma master_sfx a bk evs x r : read_master a bk evs = Ok (x, r) -> sfx r evs.
Proof.
  unfold read_master. destruct (fold_left master_attr a _). intros H. apply bind_ok in H as ((q & r') & E & H). apply bind_ok in H as (b' & _ & H). injection H as <- <-. eapply reading_sfx; [apply master_shrinks|exact E].
Qed.
Lemma styles_shrinks o : shrinks (styles_step o).
Proof.
  intros s e r s' r' H. unfold styles_step in H. destruct (on_tag e) as [((n & a) & b)|]; [|same_rest].
  destruct (str_eqb n t_style); [eapply style_style_sfx, H|]. destruct (str_eqb n t_default); [eapply style_style_sfx, H|]. destruct (format_of n); [eapply format_sfx, H|same_rest].
Qed.
Lemma automatic_shrinks o : shrinks (automatic_step o).
Proof.
  intros s e r s' r' H. unfold automatic_step in H. destruct (on_tag e) as [((n & a) & b)|]; [|same_rest].
  destruct (str_eqb n t_style); [eapply style_style_sfx, H|]. destruct (str_eqb n t_page); [eapply page_sfx, H|]. destruct (format_of n); [eapply format_sfx, H|same_rest].
Qed.
Lemma masters_shrinks : shrinks masters_step.
Proof. intros s e r s' r' H. unfold masters_step in H. destruct (on_tag e) as [((n & a) & b)|]; [|same_rest]. destruct (str_eqb n t_master); [eapply master_sfx, H|same_rest]. Qed.
Lemma doc_shrinks o : shrinks (doc_step o).
Proof.
  intros s e r s' r' H. unfold doc_step in H. destruct e; try (same_rest; fail). destruct (str_eqb n t_fonts); [eapply fonts_sfx, H|].
  destruct (str_eqb n t_office_styles); [apply bind_ok in H as ((p & r2) & E & H); injection H as <- <-; eapply reading_sfx; [apply styles_shrinks|exact E]|].
  destruct (str_eqb n t_automatic); [apply bind_ok in H as ((p & r2) & E & H); injection H as <- <-; eapply reading_sfx; [apply automatic_shrinks|exact E]|].
  destruct (str_eqb n t_masters); [apply bind_ok in H as ((p & r2) & E & H); injection H as <- <-; eapply reading_sfx; [apply masters_shrinks|exact E]|]. same_rest.
Qed.
Lemma scripts_shrinks : shrinks scripts_step.
Proof.
  intros s e r s' r' H. unfold scripts_step in H. destruct (on_tag e) as [((n & a) & b)|]; [|same_rest]. destruct (str_eqb n t_script); [apply bind_ok in H as ((x & r2) & E & H); apply xml_sfx in E; same_rest|]. same_rest.
Qed.
Lemma table_loop_sfx ign evs : forall s m x r, table_loop ign s m evs = Ok (x, r) -> sfx r evs.
Proof.
  induction evs as [|e evs IH]; intros s m x r H; cbn [table_loop] in H; [discriminate|]. apply bind_ok in H as ([[s' m']|s'] & _ & H); [apply IH in H; auto|injection H as <- <-; auto].
Qed.
Lemma table_sfx ign e evs x r : read_table ign (e :: evs) = Ok (x, r) -> sfx r evs.
Proof. unfold read_table. destruct e; try discriminate. intros H. apply bind_ok in H as (sh & _ & H). apply bind_ok in H as ((s & r') & E & H). injection H as <- <-. eapply table_loop_sfx, E. Qed.
Lemma body_shrinks ign : shrinks (body_step ign).
Proof.
  intros s e r s' r' H. unfold body_step in H. destruct (on_tag e) as [((n & a) & b)|]; [|same_rest].
  destruct (negb b && str_eqb n t_valids); [apply bind_ok in H as ((x & r2) & E & H); apply valids_sfx in E; same_rest|].
  destruct (negb b && str_eqb n t_table); [apply bind_ok in H as ((x & r2) & E & H); apply table_sfx in E; same_rest|].
  destruct (existsb (str_eqb n) _); [apply bind_ok in H as ((x & r2) & E & H); apply xml_sfx in E; same_rest|]. same_rest.
Qed.
Lemma body_sfx ign w evs x r : read_office_body ign w evs = Ok (x, r) -> sfx r evs.
Proof. unfold read_office_body. intros H. apply bind_ok in H as ((p & r') & E & H). injection H as <- <-. eapply reading_sfx; [apply body_shrinks|exact E]. Qed.
Lemma meta_loop_sfx evs : forall s x r, meta_loop s evs = Ok (x, r) -> sfx r evs.
Proof. induction evs as [|e evs IH]; intros s x r H; cbn [meta_loop] in H; [discriminate|]. apply bind_ok in H as (s' & _ & H). destruct s'; try (injection H as <- <-; auto); apply IH in H; auto. Qed.
Lemma config_loop_sfx evs : forall s x r, config_loop s evs = Ok (x, r) -> sfx r evs.
Proof. induction evs as [|e evs IH]; intros s x r H; cbn [config_loop] in H; [discriminate|]. apply bind_ok in H as (s' & _ & H). destruct s'; try (injection H as <- <-; auto); apply IH in H; auto. Qed.
Lemma content_shrinks ign : shrinks (content_step ign).
Proof.
  intros s e r s' r' H. unfold content_step in H. destruct e; try (same_rest; fail). destruct (str_eqb n (lit "office:document-content")); [same_rest|].
  destruct (str_eqb n t_scripts); [apply bind_ok in H as ((p & r2) & E & H); injection H as <- <-; eapply reading_sfx; [apply scripts_shrinks|exact E]|].
  destruct (existsb (str_eqb n) style_sections); [apply bind_ok in H as ((p & r2) & E & H); injection H as <- <-; eapply doc_shrinks, E|].
  destruct (str_eqb n t_body); [eapply body_sfx, H|same_rest].
Qed.
Lemma fods_shrinks ign : shrinks (fods_step ign).
Proof.
  intros s e r s' r' H. unfold fods_step in H. destruct e; try (same_rest; fail). destruct (str_eqb n (lit "office:document")); [same_rest|].
  destruct (str_eqb n t_meta); [apply bind_ok in H as ((p & r2) & E & H); injection H as <- <-; eapply meta_loop_sfx, E|].
  destruct (str_eqb n t_settings); [apply bind_ok in H as ((p & r2) & E & H); injection H as <- <-; eapply config_loop_sfx, E|].
  destruct (str_eqb n t_scripts); [apply bind_ok in H as ((p & r2) & E & H); injection H as <- <-; eapply reading_sfx; [apply scripts_shrinks|exact E]|].
  destruct (existsb (str_eqb n) style_sections); [apply bind_ok in H as ((p & r2) & E & H); injection H as <- <-; eapply doc_shrinks, E|].
  destruct (str_eqb n t_body); [eapply body_sfx, H|same_rest].
Qed.
Lemma fods_only_shrinks ign : shrinks (fods_only_step ign).
Proof. intros s e r s' r' H. unfold fods_only_step in H. destruct e; try (same_rest; fail). destruct (str_eqb n t_body); [eapply body_sfx, H|same_rest]. Qed.

(** ** Files that do not end inside a table *)

Definition good (evs : list event) : Prop := exists st, nested st evs = true /\ ~ In t_table (left_open st evs).
Lemma good_tail e evs : good (e :: evs) -> good evs.
Proof.
  intros (st & N & L). destruct e; cbn [nested left_open] in N, L; try (exists st; now split).
  - exists (n :: st). now split.
  - destruct st as [|m st]; [discriminate|]. apply andb_true_iff in N as (_ & N). exists st. now split.
Qed.
Lemma good_sfx evs r : good evs -> sfx r evs -> good r.
Proof. intros G (p & ->). revert G. induction p as [|e p IH]; intros G; [exact G|]. apply IH. apply good_tail in G. exact G. Qed.

(** The tags open inside a table, for what reads at the moment. *)
Definition under (t : str) (P : list str -> Prop) (o : list str) : Prop := exists a b, o = a ++ t :: b /\ P b.
Definition sub_inside (P : list str -> Prop) (m : smode) : list str -> Prop :=
  match m with
  | SAnn _ => under t_annotation P
  | SAnnText _ d _ => under (text_tag d) (under t_annotation P)
  | SAnnTree _ n _ => under n (under t_annotation P)
  | SFrame _ => under t_frame P
  | SFrameText _ d _ => under (frame_tag d) (under t_frame P)
  | SImage _ _ => under t_image (under t_frame P)
  | SImageData _ _ _ => under t_data (under t_image (under t_frame P))
  | SImageTree _ _ n _ => under n (under t_image (under t_frame P))
  end.
Definition inside (m : tmode) (o : list str) : Prop :=
  match m with
  | MTable => True
  | MTree tag _ => In tag o
  | MCell tag _ KCell => In tag o
  | MCell tag _ (KPara _ _ _) => under t_p (In tag) o
  | MCell tag _ (KSub m) => sub_inside (In tag) m o
  end.
Definition after_event (o : list str) (e : event) : list str := match e with EStart n _ => n :: o | EEnd _ => tl o | _ => o end.
Lemma left_open_cons o e r : left_open o (e :: r) = left_open (after_event o e) r. Proof. now destruct e. Qed.
Lemma nested_cons o e r : nested o (e :: r) = true -> nested (after_event o e) r = true /\ match e with EEnd n => exists o', o = n :: o' | _ => True end.
Proof.
  destruct e; cbn [nested after_event]; auto. destruct o as [|m o]; [discriminate|]. intros H. apply andb_true_iff in H as (H & N). apply str_eqb_eq in H as ->. split; [exact N|]. now exists o.
Qed.
Lemma tree_inside tag st o e st' : In tag o -> match e with EEnd n => exists o', o = n :: o' | _ => True end -> tree_step tag st e = Ok (inl st') -> In tag (after_event o e).
Proof.
  intros I F H. destruct e; cbn [after_event]; auto; [now right|]. destruct F as (o' & ->). cbn [tree_step] in H. destruct st; [discriminate|]. cbn [tl]. destruct (str_eqb n tag) eqn:Q; [discriminate|].
  destruct I as [<-|I]; [now rewrite str_eqb_refl in Q|exact I].
Qed.
Definition fits (o : list str) (e : event) : Prop := match e with EEnd n => exists o', o = n :: o' | _ => True end.
Definition grows (P : list str -> Prop) : Prop := forall a b, P b -> P (a ++ b).
Lemma grows_in tag : grows (In tag). Proof. intros a b I. apply in_or_app. now right. Qed.
Lemma grows_under t P : grows (under t P). Proof. intros a b (u & v & -> & H). exists (a ++ u), v. now rewrite app_assoc. Qed.
Lemma under_stays t P o e : under t P o -> fits o e -> e <> EEnd t -> under t P (after_event o e).
Proof.
  intros (a & b & -> & H) F N. destruct e; cbn [after_event]; try (now exists a, b); [now exists (n :: a), b|]. destruct F as (o' & E).
  destruct a as [|x a]; cbn [app] in E; [congruence|]. now exists a, b.
Qed.
Lemma under_ends t P o : under t P o -> fits o (EEnd t) -> grows P -> P (tl o).
Proof. intros (a & b & -> & H) (o' & E) G. destruct a as [|x a]; cbn [app tl]; [exact H|]. replace (a ++ t :: b) with ((a ++ [t]) ++ b) by (now rewrite <- app_assoc). now apply G. Qed.
Lemma under_in t (P : list str -> Prop) o : P o -> under t P (t :: o). Proof. now exists [], o. Qed.
Lemma tree_under tag st o e P z : under tag P o -> fits o e -> grows P -> tree_step tag st e = Ok z ->
  match z with inl _ => under tag P (after_event o e) | inr _ => P (after_event o e) end.
Proof.
  intros U F G H. destruct z as [st'|x].
  - apply under_stays; auto. intros ->. cbn [tree_step] in H. destruct st; [discriminate|]. now rewrite str_eqb_refl in H.
  - destruct e; cbn [tree_step] in H; try discriminate H; try (apply bind_ok in H as (? & _ & H); try apply bind_ok in H as (? & _ & H); discriminate).
    destruct st as [|f st]; [discriminate|]. destruct (str_eqb n tag) eqn:Q; [apply str_eqb_eq in Q as ->; exact (under_ends _ P _ U F G)|].
    destruct st as [|g st]; cbn [bind] in H; try discriminate.
Qed.
Lemma text_under tag t o e P z : under tag P o -> fits o e -> grows P -> rtext_step tag t e = Ok z ->
  match z with inl _ => under tag P (after_event o e) | inr _ => P (after_event o e) end.
Proof.
  intros U F G H. destruct e; cbn [rtext_step] in H; try discriminate H.
  - destruct (str_eqb n tag) eqn:Q; [|discriminate]. injection H as <-. apply str_eqb_eq in Q as ->. exact (under_ends _ P _ U F G).
  - injection H as <-. exact U.
  - apply bind_ok in H as (? & _ & H). injection H as <-. exact U.
  - injection H as <-. exact U.
Qed.
Lemma sub_goes_inside P m e z o : sub_inside P m o -> fits o e -> grows P -> sub_step m e = Ok z ->
  match z with inl m' => sub_inside P m' (after_event o e) | inr _ => P (after_event o e) end.
Proof.
  intros I F G H. assert (G1 : forall t, grows (under t P)) by (intros; apply grows_under). assert (G2 : forall t t', grows (under t (under t' P))) by (intros; apply grows_under).
  destruct m; cbn [sub_step sub_inside] in *.
  - destruct e; try (injection H as <-; exact I).
    + destruct (str_eqb n t_creator) eqn:Q1; [apply str_eqb_eq in Q1 as ->; injection H as <-; now apply under_in|].
      destruct (str_eqb n t_date) eqn:Q2; [apply str_eqb_eq in Q2 as ->; injection H as <-; now apply under_in|].
      destruct (is_text_tag n); injection H as <-; [now apply under_in|]. apply under_stays; [exact I|exact F|discriminate].
    + repeat match type of H with (if ?b then _ else _) = _ => destruct b end; injection H as <-; exact I.
    + destruct (str_eqb n t_annotation) eqn:Q; injection H as <-; [apply str_eqb_eq in Q as ->; refine (under_ends _ _ _ I F _); auto|].
      apply under_stays; [exact I|exact F|]. intros E. injection E as ->. now rewrite str_eqb_refl in Q.
  - apply bind_ok in H as (r & S & H). eapply text_under in S; eauto. destruct r as [t'|t']; [injection H as <-; exact S|]. apply bind_ok in H as (a' & _ & H). injection H as <-. exact S.
  - apply bind_ok in H as (r & S & H). eapply tree_under in S; eauto. destruct r as [t'|t']; injection H as <-; exact S.
  - destruct e; try (injection H as <-; exact I).
    + destruct (str_eqb n t_image) eqn:Q1; [apply str_eqb_eq in Q1 as ->; injection H as <-; now apply under_in|].
      destruct (str_eqb n t_desc) eqn:Q2; [apply str_eqb_eq in Q2 as ->; injection H as <-; now apply under_in|].
      destruct (str_eqb n t_title) eqn:Q3; [apply str_eqb_eq in Q3 as ->; injection H as <-; now apply under_in|]. injection H as <-. apply under_stays; [exact I|exact F|discriminate].
    + repeat match type of H with (if ?b then _ else _) = _ => destruct b end; injection H as <-; exact I.
    + destruct (str_eqb n t_frame) eqn:Q; injection H as <-; [apply str_eqb_eq in Q as ->; refine (under_ends _ _ _ I F _); auto|].
      apply under_stays; [exact I|exact F|]. intros E. injection E as ->. now rewrite str_eqb_refl in Q.
  - apply bind_ok in H as (r & S & H). eapply text_under in S; eauto. destruct r as [t'|t']; injection H as <-; exact S.
  - destruct e; try (injection H as <-; exact I).
    + destruct (str_eqb n t_data) eqn:Q1; [apply str_eqb_eq in Q1 as ->; injection H as <-; now apply under_in|].
      destruct (is_text_tag n); injection H as <-; [now apply under_in|]. apply under_stays; [exact I|exact F|discriminate].
    + repeat match type of H with (if ?b then _ else _) = _ => destruct b end; injection H as <-; exact I.
    + destruct (str_eqb n t_image) eqn:Q; injection H as <-; [apply str_eqb_eq in Q as ->; refine (under_ends _ _ _ I F _); auto|].
      apply under_stays; [exact I|exact F|]. intros E. injection E as ->. now rewrite str_eqb_refl in Q.
  - apply bind_ok in H as (r & S & H). eapply text_under in S; eauto. destruct r as [t'|t']; injection H as <-; exact S.
  - apply bind_ok in H as (r & S & H). eapply tree_under in S; eauto. destruct r as [t'|t']; injection H as <-; exact S.
Qed.
Lemma sub_start_inside (P : list str -> Prop) n a m o : P o -> sub_start (EStart n a) = Ok m -> sub_inside P m (n :: o).
Proof.
  intros H S. cbn [sub_start] in S. destruct (str_eqb n t_annotation) eqn:Q; [apply bind_ok in S as (x & _ & S); injection S as <-; apply str_eqb_eq in Q as ->; now apply under_in|].
  destruct (str_eqb n t_frame) eqn:Q2; [|discriminate]. injection S as <-. apply str_eqb_eq in Q2 as ->. now apply under_in.
Qed.
Lemma cell_inside tag x m e x' m' o s0 : inside (MCell tag s0 m) o -> match e with EEnd n => exists o', o = n :: o' | _ => True end -> cell_step tag x m e = Ok (inl (x', m')) -> inside (MCell tag s0 m') (after_event o e).
Proof.
  intros I F H. destruct m as [|a pc st|q]; cbn [cell_step] in H.
  - cbn [inside] in I. destruct e; cbn [after_event].
    + destruct (str_eqb n t_p) eqn:Q; [injection H as <- <-; apply str_eqb_eq in Q as ->; now apply under_in|].
      destruct (str_eqb n t_annotation || str_eqb n t_frame); [|injection H as <- <-; now right].
      apply bind_ok in H as (q & S & H). injection H as <- <-. cbn [inside]. eapply sub_start_inside; eassumption.
    + destruct (str_eqb n t_p); injection H as <- <-; exact I.
    + destruct (str_eqb n tag) eqn:Q; [discriminate|]. injection H as <- <-. destruct F as (o' & ->). destruct I as [<-|I]; [now rewrite str_eqb_refl in Q|exact I].
    + injection H as <- <-. exact I.
    + injection H as <- <-. exact I.
    + injection H as <- <-. exact I.
  - apply bind_ok in H as ([(pc' & st')|t] & S & H); injection H as <- <-.
    + apply under_stays; [exact I|exact F|]. intros ->. cbn [para_step] in S. rewrite str_eqb_refl in S. destruct st; discriminate.
    + destruct e; cbn [para_step] in S; try discriminate S; try (apply bind_ok in S as (? & _ & S); discriminate). destruct (str_eqb n t_p) eqn:Q.
      * apply str_eqb_eq in Q as ->. exact (under_ends t_p (In tag) o I F (grows_in tag)).
      * exfalso. destruct pc; try discriminate S; destruct st; discriminate S.
  - apply bind_ok in H as (z & S & H). eapply sub_goes_inside in S; [|exact I|exact F|apply grows_in]. destruct z as [q'|d]; injection H as <- <-; exact S.
Qed.
Lemma inside_cell tag x y m o : inside (MCell tag x m) o -> inside (MCell tag y m) o. Proof. now destruct m. Qed.
Lemma event_inside ign s e s' m' o : table_event ign s e = Ok (inl (s', m')) -> inside m' (after_event o e).
Proof.
  intros H. unfold table_event in H. repeat match type of H with
    | (let* _ := _ in _) = _ => apply bind_ok in H as (? & _ & H)
    | (let (_, _) := ?p in _) = _ => destruct p
    | (if ?b then _ else _) = _ => destruct b
    | match ?e with EStart _ _ => _ | _ => _ end = _ => destruct e
    | match ?l with [] => _ | _ :: _ => _ end = _ => destruct l
    end; try discriminate H; injection H as <- <-; cbn [inside after_event]; auto; now left.
Qed.
Lemma step_inside ign s m e s' m' o : inside m o -> match e with EEnd n => (exists o', o = n :: o') \/ m = MTable | _ => True end -> table_step ign s m e = Ok (inl (s', m')) -> inside m' (after_event o e).
Proof.
  intros I F H. destruct m as [|tag x cm|tag st]; cbn [table_step] in H; [eapply event_inside, H| |].
  - assert (F' : match e with EEnd n => exists o', o = n :: o' | _ => True end) by (destruct e; auto; destruct F as [F|F]; [exact F|discriminate]).
    apply bind_ok in H as ([(x' & cm')|x'] & S & H).
    + injection H as <- <-. eapply inside_cell, cell_inside; [exact I|exact F'|exact S].
    + apply bind_ok in H as (d & _ & H). apply bind_ok in H as (y & _ & H). apply bind_ok in H as (z & _ & H). injection H as <- <-. exact Logic.I.
  - assert (F' : match e with EEnd n => exists o', o = n :: o' | _ => True end) by (destruct e; auto; destruct F as [F|F]; [exact F|discriminate]).
    apply bind_ok in H as ([st'|x] & S & H); injection H as <- <-; [|exact Logic.I]. eapply tree_inside; eauto.
Qed.
Lemma under_open t P o : under t P o -> o <> []. Proof. intros (a & b & -> & _). now destruct a. Qed.
Lemma inside_open m o : inside m o -> o <> [] \/ m = MTable.
Proof. destruct m as [|tag x [|a pc st|q]|]; cbn [inside]; auto; intros H; left; try (now intros ->); [eapply under_open, H|]. destruct q; eapply under_open, H. Qed.
Lemma table_ends ign evs : forall n s m o st, inside m o -> nested (o ++ t_table :: st) evs = true -> ~ In t_table (left_open (o ++ t_table :: st) evs) -> (length evs <= n)%nat
  -> table_turns n ign s m evs = Some (table_loop ign s m evs).
Proof.
  induction evs as [|e r IH]; intros n s m o st I N L G; [exfalso; apply L; cbn [left_open]; apply in_or_app; right; now left|]. destruct n as [|n]; [cbn [length] in G; lia|]. cbn [table_turns table_loop].
  apply nested_cons in N as (N & F). rewrite left_open_cons in L.
  destruct (table_step ign s m e) as [[(s' & m')|s']| |] eqn:S; cbn [bind]; try reflexivity.
  assert (X : after_event (o ++ t_table :: st) e = after_event o e ++ t_table :: st /\ match e with EEnd n => (exists o', o = n :: o') \/ m = MTable | _ => True end).
  { destruct e; cbn [after_event] in *; auto. destruct F as (o' & F). destruct o as [|q o]; [|cbn [app] in F; injection F as -> _; split; [reflexivity|left; eauto]].
    exfalso. cbn [app] in F. destruct (inside_open _ _ I) as [Z| ->]; [congruence|]. assert (n0 = t_table) as -> by congruence. cbn [table_step table_event] in S. rewrite str_eqb_refl in S. discriminate. }
  destruct X as (X & F'). rewrite X in N, L. apply (IH n s' m' (after_event o e) st); auto; [eapply step_inside; eauto|cbn [length] in G; lia].
Qed.
(** Whether or not it is complete: a table that can be read is read, and a table that is read is one that can be read. *)
Lemma table_reads ign evs : forall n s m y, table_loop ign s m evs = Ok y -> (length evs <= n)%nat -> table_turns n ign s m evs = Some (Ok y).
Proof.
  induction evs as [|e r IH]; intros n s m y H G; cbn [table_loop] in H; [discriminate|]. destruct n as [|n]; [cbn [length] in G; lia|]. cbn [table_turns].
  apply bind_ok in H as ([(s' & m')|s'] & S & H); rewrite S; [apply IH; [exact H|cbn [length] in G; lia]|now injection H as <-].
Qed.
Lemma turns_at_end n ign s m : match table_turns n ign s m [] with Some (Ok _) => False | _ => True end.
Proof. revert s m. induction n as [|n IH]; intros s m; cbn [table_turns]; [exact I|]. destruct (table_eof ign s m); [apply IH|exact I|exact I]. Qed.
Lemma table_was_read ign evs : forall n s m y, table_turns n ign s m evs = Some (Ok y) -> table_loop ign s m evs = Ok y.
Proof.
  induction evs as [|e r IH]; intros n s m y H; [pose proof (turns_at_end n ign s m) as T; now rewrite H in T|]. destruct n as [|n]; cbn [table_turns] in H; [discriminate|]. cbn [table_loop].
  destruct (table_step ign s m e) as [[(s' & m')|s']| |]; cbn [bind]; try discriminate; [eapply IH, H|congruence].
Qed.

(** ** The loops around *)

Section Loops.
Context {S : Type} (stop : option str) (N : nat) (stept : S -> event -> list event -> option (res (S * list event))) (step : S -> event -> list event -> res (S * list event)).
Hypothesis SH : shrinks step.
Lemma reading_ends : (forall s e r, good (e :: r) -> (length r <= N)%nat -> stept s e r = Some (step s e r)) ->
  forall n m s evs, good evs -> (length evs <= N)%nat -> (length evs < n)%nat -> (length evs <= m)%nat -> reading_turns n stop stept s evs = Some (reading m stop step s evs).
Proof.
  intros ST. induction n as [|n IH]; intros m s evs G A B C; [lia|]. destruct evs as [|e r]; [now destruct m|]. cbn [length] in *. destruct m as [|m]; [lia|]. cbn [reading_turns reading].
  destruct (match e, stop with EEnd t, Some q => str_eqb t q | _, _ => false end); [reflexivity|]. rewrite ST by (auto; lia). destruct (step s e r) as [(s' & r')| |] eqn:E; cbn [bind]; try reflexivity.
  apply SH in E. pose proof (sfx_length _ _ E). apply IH; try lia. eapply good_sfx; [eapply good_tail, G|exact E].
Qed.
Lemma reading_reads : (forall s e r y, step s e r = Ok y -> (length r <= N)%nat -> stept s e r = Some (Ok y)) ->
  forall n m s evs y, reading m stop step s evs = Ok y -> (length evs <= N)%nat -> (length evs < n)%nat -> reading_turns n stop stept s evs = Some (Ok y).
Proof.
  intros ST. induction n as [|n IH]; intros m s evs y H A B; [lia|]. destruct evs as [|e r]; [destruct m; cbn [reading] in H; now injection H as <-|]. cbn [length] in *. destruct m as [|m]; [discriminate|]. cbn [reading_turns reading] in *.
  destruct (match e, stop with EEnd t, Some q => str_eqb t q | _, _ => false end); [now injection H as <-|]. apply bind_ok in H as ((s' & r') & E & H). rewrite (ST s e r _ E) by lia. apply SH in E. pose proof (sfx_length _ _ E). eapply IH; [exact H|lia|lia].
Qed.
Lemma reading_was_read : (forall s e r y, stept s e r = Some (Ok y) -> step s e r = Ok y) ->
  forall n m s evs y, reading_turns n stop stept s evs = Some (Ok y) -> (length evs <= m)%nat -> reading m stop step s evs = Ok y.
Proof.
  intros ST. induction n as [|n IH]; intros m s evs y H G; cbn [reading_turns] in H; [discriminate|]. destruct evs as [|e r]; [destruct m; cbn [reading]; now injection H as <-|]. cbn [length] in G. destruct m as [|m]; [lia|]. cbn [reading].
  destruct (match e, stop with EEnd t, Some q => str_eqb t q | _, _ => false end); [now injection H as <-|]. destruct (stept s e r) as [[(s' & r')| |]|] eqn:E; try discriminate. apply ST in E. rewrite E. cbn [bind].
  apply SH in E. pose proof (sfx_length _ _ E). eapply IH; [exact H|lia].
Qed.
End Loops.

Lemma read_table_ends n ign a r : good (EStart t_table a :: r) -> (length r <= n)%nat -> read_table_turns n ign (EStart t_table a :: r) = Some (read_table ign (EStart t_table a :: r)).
Proof.
  intros (st & N & L) G. cbn [read_table_turns read_table]. destruct (TableModel.fold_attrs table_attr sheet0 a) as [sh| |]; cbn [bind]; try reflexivity. cbn [nested left_open] in N, L. now rewrite (table_ends ign r n _ MTable [] st).
Qed.
Lemma read_table_reads n ign a t r y : read_table ign (EStart t a :: r) = Ok y -> (length r <= n)%nat -> read_table_turns n ign (EStart t a :: r) = Some (Ok y).
Proof.
  intros H G. cbn [read_table_turns read_table] in *. apply bind_ok in H as (sh & E & H). rewrite E. apply bind_ok in H as (z & T & H). rewrite (table_reads _ _ n _ _ _ T G). cbn [bind]. now rewrite H.
Qed.
Lemma read_table_was_read n ign a t r y : read_table_turns n ign (EStart t a :: r) = Some (Ok y) -> read_table ign (EStart t a :: r) = Ok y.
Proof.
  intros H. cbn [read_table_turns read_table] in *. destruct (TableModel.fold_attrs table_attr sheet0 a) as [sh| |]; try discriminate. cbn [bind]. destruct (table_turns _ _ _ _ _) as [z|] eqn:T; [|discriminate]. injection H as H. apply bind_ok in H as (z' & -> & H). apply table_was_read in T. rewrite T. exact H.
Qed.
Lemma body_step_table ign w a r : body_step ign w (EStart t_table a) r = let* (s, r') := read_table ign (EStart t_table a :: r) in Ok (put_sheets (wb_sheets w ++ [s]) w, r').
Proof. reflexivity. Qed.
Lemma body_turn_ends n ign w e r : good (e :: r) -> (length r <= n)%nat -> body_turn n ign w e r = Some (body_step ign w e r).
Proof.
  intros G L. unfold body_turn. destruct e; try reflexivity. destruct (str_eqb n0 t_table) eqn:Q; [|reflexivity]. apply str_eqb_eq in Q as ->. now rewrite read_table_ends, body_step_table.
Qed.
Lemma body_turn_reads n ign w e r y : body_step ign w e r = Ok y -> (length r <= n)%nat -> body_turn n ign w e r = Some (Ok y).
Proof.
  intros H L. unfold body_turn. destruct e; try (now rewrite H). destruct (str_eqb n0 t_table) eqn:Q; [|now rewrite H]. apply str_eqb_eq in Q as ->. rewrite body_step_table in H. apply bind_ok in H as (z & T & H). rewrite (read_table_reads n _ _ _ _ _ T L). cbn [bind]. now rewrite H.
Qed.
Lemma body_turn_was_read n ign w e r y : body_turn n ign w e r = Some (Ok y) -> body_step ign w e r = Ok y.
Proof.
  unfold body_turn. destruct e; try (congruence). destruct (str_eqb n0 t_table) eqn:Q; [|congruence]. apply str_eqb_eq in Q as ->. rewrite body_step_table. destruct (read_table_turns _ _ _) as [z|] eqn:T; [|discriminate]. intros H. injection H as H.
  apply bind_ok in H as (z' & -> & H). apply read_table_was_read in T. rewrite T. exact H.
Qed.
Lemma body_ends n ign w r : good r -> (length r < n)%nat -> body_turns n ign w r = Some (read_office_body ign w r).
Proof.
  intros G L. unfold body_turns, read_office_body. rewrite (reading_ends (Some t_body) n (body_turn n ign) (body_step ign) (body_shrinks ign)) with (m := length r); auto; try lia. intros s e r0 G0 L0. now apply body_turn_ends.
Qed.
Lemma body_reads n ign w r y : read_office_body ign w r = Ok y -> (length r < n)%nat -> body_turns n ign w r = Some (Ok y).
Proof.
  unfold body_turns, read_office_body. intros H L. apply bind_ok in H as (z & E & H). rewrite (reading_reads (Some t_body) n (body_turn n ign) (body_step ign) (body_shrinks ign)) with (m := length r) (y := z); auto; try lia; [cbn [bind]; now rewrite H|].
  intros. now apply body_turn_reads.
Qed.
Lemma body_was_read n ign w r y : body_turns n ign w r = Some (Ok y) -> read_office_body ign w r = Ok y.
Proof.
  unfold body_turns, read_office_body. destruct (reading_turns _ _ _ _ _) as [z|] eqn:T; [|discriminate]. intros H. injection H as H. apply bind_ok in H as (z' & -> & H).
  apply (reading_was_read (Some t_body) (body_turn n ign) (body_step ign) (body_shrinks ign)) with (m := length r) in T; auto; [now rewrite T|]. intros. eapply body_turn_was_read; eauto.
Qed.

(** A file whose steps read the body as [read_office_body] does. *)
Record bodily (ign : bool) (step : workbook -> event -> list event -> res (workbook * list event)) : Prop := Bodily {
  bo_shrinks : shrinks step;
  bo_body : forall w a r, step w (EStart t_body a) r = read_office_body ign w r }.
Lemma content_bodily ign : bodily ign (content_step ign). Proof. split; [apply content_shrinks|reflexivity]. Qed.
Lemma fods_bodily ign : bodily ign (fods_step ign). Proof. split; [apply fods_shrinks|reflexivity]. Qed.
Lemma fods_only_bodily ign : bodily ign (fods_only_step ign). Proof. split; [apply fods_only_shrinks|reflexivity]. Qed.
Lemma file_turn_ends step n ign w e r : bodily ign step -> good (e :: r) -> (length r < n)%nat -> file_turn step n ign w e r = Some (step w e r).
Proof. intros B G L. unfold file_turn. destruct e; try reflexivity. destruct (str_eqb n0 t_body) eqn:Q; [|reflexivity]. apply str_eqb_eq in Q as ->. rewrite (bo_body _ _ B). apply body_ends; [eapply good_tail, G|exact L]. Qed.
Lemma file_turn_reads step n ign w e r y : bodily ign step -> step w e r = Ok y -> (length r < n)%nat -> file_turn step n ign w e r = Some (Ok y).
Proof. intros B H L. unfold file_turn. destruct e; try (now rewrite H). destruct (str_eqb n0 t_body) eqn:Q; [|now rewrite H]. apply str_eqb_eq in Q as ->. rewrite (bo_body _ _ B) in H. now apply body_reads. Qed.
Lemma file_turn_was_read step n ign w e r y : bodily ign step -> file_turn step n ign w e r = Some (Ok y) -> step w e r = Ok y.
Proof. intros B. unfold file_turn. destruct e; try congruence. destruct (str_eqb n0 t_body) eqn:Q; [|congruence]. apply str_eqb_eq in Q as ->. rewrite (bo_body _ _ B). apply body_was_read. Qed.
Lemma closed_good text evs : read_events text = Ok evs -> tables_closed evs -> good evs.
Proof. intros E T. exists []. split; [|exact T]. unfold read_events in E. apply bind_ok in E as (l & _ & E). destruct (nested [] l) eqn:N; [|discriminate]. now injection E as <-. Qed.
Lemma file_ends step n ign w text evs : bodily ign step -> read_events text = Ok evs -> tables_closed evs -> (length evs < n)%nat -> file_turns step n ign w text = Some (read_file step w text).
Proof.
  intros B E C L. unfold file_turns, read_file. rewrite E. cbn [bind]. rewrite (reading_ends None (length evs) (file_turn step n ign) step (bo_shrinks _ _ B)) with (m := length evs); eauto using closed_good.
  intros s e r G L0. apply file_turn_ends; auto. lia.
Qed.
Lemma file_reads step n ign w text evs y : bodily ign step -> read_events text = Ok evs -> read_file step w text = Ok y -> (length evs < n)%nat -> file_turns step n ign w text = Some (Ok y).
Proof.
  intros B E H L. unfold file_turns, read_file in *. rewrite E in *. cbn [bind] in H. apply bind_ok in H as (z & R & H). rewrite (reading_reads None (length evs) (file_turn step n ign) step (bo_shrinks _ _ B)) with (m := length evs) (y := z); auto; [cbn [bind]; now rewrite H|].
  intros s e r y0 H0 L0. apply file_turn_reads; auto. lia.
Qed.
Lemma file_was_read step n ign w text y : bodily ign step -> file_turns step n ign w text = Some (Ok y) -> read_file step w text = Ok y.
Proof.
  intros B. unfold file_turns, read_file. destruct (read_events text) as [evs| |]; try discriminate. destruct (reading_turns _ _ _ _ _) as [z|] eqn:T; [|discriminate]. intros H. injection H as H. apply bind_ok in H as (z' & -> & H). cbn [bind].
  apply (reading_was_read None (file_turn step n ign) step (bo_shrinks _ _ B)) with (m := length evs) in T; auto; [now rewrite T|]. intros. eapply file_turn_was_read; eauto.
Qed.

(** ** Tables cut off *)

(** Whether the value of a cell can be made does not depend on its content. *)
Definition val_ok (x : cellacc) : Prop :=
  match CellIoModel.a_type x with
  | TyEmpty | TyText => True
  | TyBool => a_bool x <> None
  | TyNumber | TyPercent | TyCurrency => a_float x <> None
  | TyTextXml => False
  | TyDateTime => a_dt x <> None
  | TyDuration => a_dur x <> None
  end.
Lemma read_value_ok x v : (exists w, read_value x v = Ok w) <-> val_ok x.
Proof.
  unfold read_value, val_ok, need. destruct (CellIoModel.a_type x); split; intros H; try (destruct H; congruence); try exact I; try (now eexists); try (destruct H; now destruct (a_bool x) + destruct (a_float x) + destruct (a_dt x) + destruct (a_dur x));
    try (destruct (a_bool x) + destruct (a_float x) + destruct (a_dt x) + destruct (a_dur x); [now eexists|congruence]).
  destruct (a_string x); [now eexists|]. destruct (a_content x); now eexists.
Qed.
Lemma finish_ok ign d x : (exists y, cell_finish ign d x = Ok y) <-> (a_cell x = None \/ val_ok x).
Proof.
  unfold cell_finish. destruct (a_cell x) as [c|]; [|split; [now left|intros _; now eexists]]. rewrite <- (read_value_ok x (c_value c)). split.
  - intros (y & H). apply bind_ok in H as (v & E & _). right. now exists v.
  - intros [H|(v & ->)]; [discriminate|]. cbn [bind]. now eexists.
Qed.
Lemma finish_repeat ign d x y : cell_finish ign d x = Ok y -> fst y = a_repeat x.
Proof. unfold cell_finish. destruct (a_cell x); intros H; [apply bind_ok in H as (v & _ & H)|]; injection H as <-; reflexivity. Qed.
Lemma store_ok s k o o' : (exists t, store_cell s (k, o) = Ok t) -> exists t, store_cell s (k, o') = Ok t.
Proof. unfold store_cell. intros (t & H). apply bind_ok in H as (c & -> & _). cbn [bind]. now eexists. Qed.
Definition kind (x : cellacc) := (a_repeat x, CellIoModel.a_type x, a_dt x, a_dur x, a_float x, a_bool x).
Lemma kind_val x y : kind x = kind y -> val_ok x -> val_ok y.
Proof. unfold kind, val_ok. intros H. injection H as _ -> -> -> -> ->. auto. Qed.
Lemma put_kind d x : kind (put_sub d x) = kind x. Proof. now destruct d. Qed.
Lemma put_cell d x : a_cell (put_sub d x) <> None. Proof. destruct d; discriminate. Qed.
Definition wanted (x : cellacc) (m : cmode) : Prop := a_cell x <> None \/ match m with KSub _ => True | _ => False end.
Lemma eof_kind x m x' : cell_eof x m = Ok x' -> kind x' = kind x /\ (a_cell x' <> None -> wanted x m).
Proof.
  unfold wanted. destruct m as [|a pc st|q]; cbn [cell_eof]; intros H; [injection H as <-; auto..|]. apply bind_ok in H as (d & _ & H). injection H as <-. split; [apply put_kind|auto].
Qed.
Lemma cell_goes tag x m e z : cell_step tag x m e = Ok z ->
  match z with inl (x', m') => kind x' = kind x /\ (wanted x m -> wanted x' m') | inr x' => x' = x /\ m = KCell end.
Proof.
  intros H. unfold wanted. destruct m as [|a pc st|q]; cbn [cell_step] in H.
  - destruct e; repeat match type of H with (if ?b then _ else _) = _ => destruct b | (let* _ := _ in _) = _ => apply bind_ok in H as (? & _ & H) end;
    injection H as <-; cbn [set_content a_cell]; split; auto; intros [W|[]]; auto.
  - apply bind_ok in H as ([(pc' & st')|t] & _ & H); injection H as <-; split; auto.
  - apply bind_ok in H as ([q'|d] & _ & H); injection H as <-; split; auto; [apply put_kind|]. intros _. left. apply put_cell.
Qed.
Lemma eof_ok ign s tag x m x' d : cell_eof x m = Ok x' -> col_default s = Ok d -> (a_cell x' = None \/ val_ok x) -> (exists t, store_cell s (a_repeat x, None) = Ok t) ->
  exists t, table_eof ign s (MCell tag x m) = Ok t.
Proof.
  intros E D Q S. cbn [table_eof]. destruct (eof_kind x m x' E) as (K & _). rewrite D. cbn [bind]. rewrite E. cbn [bind].
  assert (Q' : exists y, cell_finish ign d x' = Ok y) by (apply finish_ok; destruct Q as [Q|Q]; [now left|right; eapply kind_val; [symmetry; exact K|exact Q]]).
  destruct Q' as ((k & o) & F). rewrite F. cbn [bind]. pose proof (finish_repeat _ _ _ _ F) as R. cbn [fst] in R. replace k with (a_repeat x) by (unfold kind in K; congruence). eapply store_ok, S.
Qed.
(** What is read is not a date, unless there is another tag. *)
Definition dated (m : tmode) : Prop := match m with MCell _ _ (KSub (SAnnText _ true _)) => True | _ => False end.
Lemma eof_reads x m : ~ dated (MCell [] x m) -> exists x', cell_eof x m = Ok x'.
Proof. intros N. destruct m as [|a pc st|q]; cbn [cell_eof]; eauto. destruct q; cbn [sub_eof]; try (cbn [bind]; eauto; fail). destruct date; [exfalso; apply N; exact I|]. cbn [ann_text_done bind]. eauto. Qed.
Lemma sub_dated q e q' a t : sub_step q e = Ok (inl q') -> q' = SAnnText a true t -> (exists b, e = EStart t_date b) \/ (~ is_tag e /\ exists t', q = SAnnText a true t').
Proof.
  intros H ->. destruct q; cbn [sub_step] in H; try (apply bind_ok in H as ([?|?] & S & H); try discriminate H; try (apply bind_ok in H as (? & _ & H); discriminate H)).
  - destruct e; repeat match type of H with (if ?b then _ else _) = _ => destruct b eqn:? end; try discriminate H. left. eexists. f_equal. now apply str_eqb_eq.
  - injection H as -> -> ->. right. split; [|eauto]. destruct e; cbn [rtext_step] in S; try discriminate S; cbn; auto. destruct (str_eqb n (text_tag true)); discriminate.
  - destruct e; repeat match type of H with (if ?b then _ else _) = _ => destruct b eqn:? end; discriminate H.
  - destruct e; repeat match type of H with (if ?b then _ else _) = _ => destruct b eqn:? end; discriminate H.
Qed.
Lemma event_dated ign s e s' m' : table_event ign s e = Ok (inl (s', m')) -> ~ dated m'.
Proof.
  intros H. unfold table_event in H. repeat match type of H with
    | (let* _ := _ in _) = _ => apply bind_ok in H as (? & _ & H)
    | (let (_, _) := ?p in _) = _ => destruct p
    | (if ?b then _ else _) = _ => destruct b
    | match ?e with EStart _ _ => _ | _ => _ end = _ => destruct e
    | match ?l with [] => _ | _ :: _ => _ end = _ => destruct l
    end; try discriminate H; injection H as <- <-; cbn [dated]; auto.
Qed.
Lemma step_dated ign s m e s' m' : table_step ign s m e = Ok (inl (s', m')) -> dated m' -> (exists b, e = EStart t_date b) \/ (~ is_tag e /\ dated m).
Proof.
  intros H D. destruct m as [|tag x cm|tag st]; cbn [table_step] in H; [now apply event_dated in H| |].
  - apply bind_ok in H as ([(x' & cm')|x'] & S & H).
    + injection H as <- <-. cbn [dated] in D. destruct cm' as [|a pc st|q']; try contradiction D. destruct q'; try contradiction D. destruct date; [|contradiction D].
      destruct cm as [|a1 pc st|q]; cbn [cell_step] in S.
      * destruct e; repeat match type of S with (if ?b then _ else _) = _ => destruct b | (let* _ := _ in _) = _ => apply bind_ok in S as (? & ? & S) end; try discriminate S.
        injection S as _ S. subst. match goal with Q : sub_start _ = _ |- _ => cbn [sub_start] in Q; destruct (str_eqb n t_annotation); [apply bind_ok in Q as (? & _ & Q)|destruct (str_eqb n t_frame)]; discriminate Q end.
      * apply bind_ok in S as ([(? & ?)|?] & _ & S); discriminate S.
      * apply bind_ok in S as ([q'|?] & S & Q); [|discriminate Q]. injection Q as _ ->. destruct (sub_dated _ _ _ _ _ S eq_refl) as [B|(B & t' & ->)]; [now left|right; now split].
    + apply bind_ok in H as (d & _ & H). apply bind_ok in H as (y & _ & H). apply bind_ok in H as (z & _ & H). injection H as <- <-. contradiction.
  - apply bind_ok in H as ([st'|x] & S & H); injection H as <- <-; contradiction.
Qed.
Lemma cell_will_finish ign q : forall s tag x m y, table_loop ign s (MCell tag x m) q = Ok y ->
  (exists d, col_default s = Ok d) /\ (wanted x m -> val_ok x) /\ (exists t, store_cell s (a_repeat x, None) = Ok t).
Proof.
  induction q as [|e q IH]; intros s tag x m y H; cbn [table_loop table_step] in H; [discriminate|]. apply bind_ok in H as (z & S & H). apply bind_ok in S as ([(x' & m')|x'] & C & S).
  - injection S as <-. apply IH in H. apply cell_goes in C as (K & W). destruct H as (D & V & T). split; [exact D|]. split.
    + intros Q. eapply kind_val; [exact K|]. auto.
    + replace (a_repeat x) with (a_repeat x') by (unfold kind in K; congruence). exact T.
  - apply cell_goes in C as (-> & ->). apply bind_ok in S as (d & D & S). apply bind_ok in S as ((k & o) & F & S). apply bind_ok in S as (s' & T & S). split; [now exists d|]. split.
    + intros [Q|[]]. assert (Z : exists y, cell_finish ign d x = Ok y) by eauto. apply finish_ok in Z as [Z|Z]; [congruence|exact Z].
    + pose proof (finish_repeat _ _ _ _ F) as R. cbn [fst] in R. subst k. eapply store_ok; eauto.
Qed.
Lemma eof_forever n ign s : table_turns n ign s MTable [] = None. Proof. revert s. induction n as [|n IH]; intros s; [reflexivity|]. cbn [table_turns table_eof]. apply IH. Qed.
Lemma eof_never n ign s m t : table_eof ign s m = Ok t -> table_turns n ign s m [] = None.
Proof. intros H. destruct n as [|n]; [reflexivity|]. cbn [table_turns]. rewrite H. apply eof_forever. Qed.
Lemma closed_tail e p : dates_closed (e :: p) -> dates_closed p.
Proof. intros H u a v ->. apply (H (e :: u) a v). reflexivity. Qed.
Lemma table_cut ign q : forall p n s m s' r, table_loop ign s m (p ++ q) = Ok (s', r) -> (length r < length q)%nat -> dates_closed p -> (dated m -> Exists is_tag p) -> table_turns n ign s m p = None.
Proof.
  induction p as [|e p IH]; intros n s m s' r H L C M; cbn [app] in H.
  - destruct m as [|tag x m|tag st]; [apply eof_forever| |eapply eof_never; reflexivity].
    apply cell_will_finish in H as ((d & D) & V & T). destruct (eof_reads x m) as (x' & E); [intros Q; specialize (M Q); inversion M|].
    destruct (eof_ok ign s tag x m x' d E D) as (t & Q); [|exact T|eapply eof_never, Q]. destruct (a_cell x') eqn:A; [right; apply V, (eof_kind x m x' E); congruence|now left].
  - cbn [table_loop] in H. destruct n as [|n]; [reflexivity|]. cbn [table_turns]. apply bind_ok in H as ([(s1 & m1)|s1] & S & H); rewrite S.
    + eapply IH; eauto using closed_tail. intros D. destruct (step_dated _ _ _ _ _ _ S D) as [(b & ->)|(N & D')]; [apply (C [] b p); reflexivity|].
      specialize (M D'). inversion M; subst; [contradiction|assumption].
    + injection H as <- <-. rewrite app_length in L. lia.
Qed.
Lemma read_table_cut ign e p q s r n : read_table ign (e :: p ++ q) = Ok (s, r) -> (length r < length q)%nat -> dates_closed p -> read_table_turns n ign (e :: p) = None.
Proof.
  intros H L C. destruct e; try discriminate H. cbn [read_table read_table_turns] in *. apply bind_ok in H as (sh & -> & H). apply bind_ok in H as ((s' & r') & T & H). injection H as <- <-. now rewrite (table_cut _ _ _ n _ _ _ _ T L C (fun f => match f with end)).
Qed.

(** ** Files cut off *)

Definition none_or {A} (o : option (res A)) (y : A) : Prop := o = None \/ o = Some (Ok y).
Lemma table_maybe ign evs : forall n s m y, table_loop ign s m evs = Ok y -> none_or (table_turns n ign s m evs) y.
Proof.
  induction evs as [|e r IH]; intros n s m y H; cbn [table_loop] in H; [discriminate|]. destruct n as [|n]; [now left|]. cbn [table_turns].
  apply bind_ok in H as ([(s' & m')|s'] & S & H); rewrite S; [now apply IH|right; now injection H as <-].
Qed.
Lemma reading_maybe {S} stop stept (step : S -> event -> list event -> res (S * list event)) : (forall s e r y, step s e r = Ok y -> none_or (stept s e r) y) ->
  forall n m s evs y, reading m stop step s evs = Ok y -> none_or (reading_turns n stop stept s evs) y.
Proof.
  intros ST. induction n as [|n IH]; intros m s evs y H; [now left|]. destruct evs as [|e r]; [right; destruct m; cbn [reading] in H; now injection H as <-|]. destruct m as [|m]; [discriminate|]. cbn [reading_turns reading] in *.
  destruct (match e, stop with EEnd t, Some q => str_eqb t q | _, _ => false end); [right; now injection H as <-|]. apply bind_ok in H as ((s' & r') & E & H). destruct (ST s e r _ E) as [-> | ->]; [now left|]. eapply IH, H.
Qed.
Lemma body_turn_maybe n ign w e r y : body_step ign w e r = Ok y -> none_or (body_turn n ign w e r) y.
Proof.
  intros H. unfold body_turn. destruct e; try (right; now rewrite H). destruct (str_eqb n0 t_table) eqn:Q; [|right; now rewrite H]. apply str_eqb_eq in Q as ->. rewrite body_step_table in H. apply bind_ok in H as (z & T & H).
  cbn [read_table_turns read_table] in *. apply bind_ok in T as (sh & -> & T). apply bind_ok in T as (z' & L & T). destruct (table_maybe _ _ n _ _ _ L) as [-> | ->]; [now left|]. right. cbn [bind]. rewrite T. cbn [bind]. now rewrite H.
Qed.
Lemma body_maybe n ign w r y : read_office_body ign w r = Ok y -> none_or (body_turns n ign w r) y.
Proof.
  unfold body_turns, read_office_body. intros H. apply bind_ok in H as (z & E & H). destruct (reading_maybe (Some t_body) (body_turn n ign) (body_step ign) (body_turn_maybe n ign) n _ _ _ _ E) as [-> | ->]; [now left|]. right. cbn [bind]. now rewrite H.
Qed.
Lemma file_turn_maybe step n ign w e r y : bodily ign step -> step w e r = Ok y -> none_or (file_turn step n ign w e r) y.
Proof. intros B H. unfold file_turn. destruct e; try (right; now rewrite H). destruct (str_eqb n0 t_body) eqn:Q; [|right; now rewrite H]. apply str_eqb_eq in Q as ->. rewrite (bo_body _ _ B) in H. now apply body_maybe. Qed.
Lemma arrives_none {S} stop stept (step : S -> event -> list event -> res (S * list event)) : (forall s e r y, step s e r = Ok y -> none_or (stept s e r) y) ->
  forall s evs s' e r, arrives stop step s evs s' (e :: r) -> (forall n, e <> EEnd n) -> stept s' e r = None -> forall n, reading_turns n stop stept s evs = None.
Proof.
  intros ST s evs s' e r A. remember (e :: r) as evs' eqn:Q. induction A as [s0 evs0|s0 e0 r0 s1 r1 s2 r2 F E A IH]; intros NE H n.
  - subst evs0. destruct n as [|n]; [reflexivity|]. cbn [reading_turns]. rewrite H. destruct e; try reflexivity. exfalso. eapply NE. reflexivity.
  - destruct n as [|n]; [reflexivity|]. cbn [reading_turns]. assert (X : (match e0, stop with EEnd t, Some q => str_eqb t q | _, _ => false end) = false).
    { destruct e0; try reflexivity. destruct stop as [q|]; [|reflexivity]. destruct (str_eqb n0 q) eqn:Z; [|reflexivity]. apply str_eqb_eq in Z as ->. exfalso. eapply F; reflexivity. }
    rewrite X. destruct (ST s0 e0 r0 _ E) as [-> | ->]; [reflexivity|]. now apply IH.
Qed.
Lemma file_cut step ign w text evs w1 b r1 w2 a p q s r : bodily ign step -> read_events text = Ok evs ->
  arrives None step w evs w1 (EStart t_body b :: r1) -> arrives (Some t_body) (body_step ign) w1 r1 w2 (EStart t_table a :: p) ->
  read_table ign (EStart t_table a :: p ++ q) = Ok (s, r) -> (length r < length q)%nat -> dates_closed p -> forall n, file_turns step n ign w text = None.
Proof.
  intros B E A1 A2 T L C n. unfold file_turns. rewrite E. rewrite (arrives_none None (file_turn step n ign) step) with (1 := fun s e r y => file_turn_maybe step n ign s e r y B) (2 := A1); [reflexivity|discriminate|].
  cbn [file_turn]. rewrite str_eqb_refl. unfold body_turns. rewrite (arrives_none (Some t_body) (body_turn n ign) (body_step ign)) with (1 := body_turn_maybe n ign) (2 := A2); [reflexivity|discriminate|].
  cbn [body_turn]. rewrite str_eqb_refl. now rewrite (read_table_cut _ _ _ _ _ _ n T L C).
Qed.
