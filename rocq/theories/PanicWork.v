(** The readers of whole files do not panic. *)
From Verif Require Import Base Lib OMap NumModel NumProofs XmlModel XmlSpec XmlProofs EnumModel.
From Verif Require Import CellModel CellIoModel HeaderModel TableModel CloneModel BookModel BookProps ScriptModel ValidModel StyleModel MetaModel ConfigModel ConfigShape WorkModel.
From Verif Require Import TermSpec TermProofs PanicSpec PanicProofs PanicParts PanicTable.

(** ** From text to events *)

Lemma unescape_np s : forall ref, unescape_from ref s <> Panic.
Proof.
  induction s as [|c s IH]; intros [acc|]; cbn [unescape_from]; try discriminate.
  - destruct (c =? c_semi); [|destruct (c =? c_amp); [discriminate|apply IH]]. apply bind_np.
    + unfold resolve_char_ref. destruct (rev acc) as [|x d]; [discriminate|]. destruct (x =? 35); [|discriminate]. destruct d as [|y h]; [discriminate|]. destruct (y =? 120); apply num_ref_np.
    + intros o. destruct (match o with Some c => _ | None => _ end); [|discriminate]. apply bind_np; [apply IH|discriminate].
  - destruct (c =? c_amp); [apply IH|]. apply bind_np; [apply IH|discriminate].
Qed.
Lemma lex_attrs_np s : forall m, np (lex_attrs m s) (fun a => (length a <= length s)%nat).
Proof.
  induction s as [|c s IH]; intros m; cbn [lex_attrs]; [destruct m; cbn; auto|].
  assert (K : forall m', np (lex_attrs m' s) (fun a => (length a <= length (c :: s))%nat)) by (intros m'; eapply np_imp; [apply IH|]; cbn [length]; cbv beta; intros ? _ L; etransitivity; [exact L|apply le_S, le_n]).
  destruct m as [|acc|k|k|k q acc]; repeat match goal with |- context [if ?b then _ else _] => destruct b end; try exact I; try apply K.
  eapply np_bind'; [apply np_of, unescape_np|]. intros v _ _. eapply np_bind'; [apply IH|]. intros a _ L. cbn [np length]. apply le_n_S. exact L.
Qed.
Lemma span_app p (s : str) : forall a b, span p s = (a, b) -> s = a ++ b.
Proof.
  induction s as [|c s IH]; intros a b E; cbn [span] in E; [now injection E as <- <-|]. destruct (p c); [|now injection E as <- <-]. destruct (span p s) as [x y]. injection E as <- <-. cbn [app]. f_equal. now apply IH.
Qed.
Lemma parse_start_np s : np (parse_start s) (fun p => (length (snd p) <= length s)%nat).
Proof.
  unfold parse_start. destruct (span _ s) as [n r] eqn:E. apply span_app in E as ->. eapply np_bind'; [apply lex_attrs_np|]. intros a _ L. cbn [np snd]. rewrite app_length. etransitivity; [exact L|]. apply Nat.le_add_l.
Qed.
Lemma removelast_le {A} (l : list A) : (length (removelast l) <= length l)%nat.
Proof. induction l as [|x [|y l] IH]; cbn [removelast length] in *; lia. Qed.
Lemma parse_tag_np s : np (parse_tag s) (fun e => size_of e <= 1 + N.of_nat (length s)).
Proof.
  unfold parse_tag. destruct s as [|c s]; [exact I|]. destruct (c =? c_slash); [cbn [np size_of]; lia|]. destruct (_ || _); [cbn [np size_of]; lia|]. destruct (_ =? c_slash).
  - eapply np_bind'; [apply parse_start_np|]. intros (n & a) _ L. cbn [snd] in L. pose proof (removelast_le (c :: s)) as L2. cbn [np size_of]. apply N.add_le_mono_l. apply (Nat.le_trans _ _ _ L) in L2. lia.
  - eapply np_bind'; [apply parse_start_np|]. intros (n & a) _ L. cbn [snd] in L. cbn [np size_of]. apply N.add_le_mono_l. lia.
Qed.
Definition begun (m : lmode) : N := match m with XmlModel.MText acc => N.of_nat (length acc) | XmlModel.MRef _ => 1 | XmlModel.MTag acc _ => 1 + N.of_nat (length acc) end.
Lemma cost_text t r : cost (emit_text t ++ r) <= N.of_nat (length t) + cost r.
Proof. destruct t as [|c t]; cbn [emit_text app]; [cbn [length]; lia|]. rewrite cost_cons. cbn [size_of length]. lia. Qed.
Lemma lex_np s : forall m, np (lex m s) (fun evs => cost evs <= begun m + N.of_nat (length s)).
Proof.
  induction s as [|c s IH]; intros m; cbn [lex].
  - destruct m as [acc|acc|acc q]; try exact I. cbn [np begun length]. rewrite <- (rev_length acc), <- (app_nil_r (emit_text (rev acc))). pose proof (cost_text (rev acc) []). change (cost []) with 0 in *. lia.
  - destruct m as [acc|acc|acc q]; cbn [begun length].
    + destruct (c =? c_lt); [|destruct (c =? c_amp)].
      * eapply np_bind'; [apply IH|]. intros r _ L. cbn [np begun length] in *. pose proof (cost_text (rev acc) r). rewrite rev_length in *. lia.
      * eapply np_bind'; [apply IH|]. intros r _ L. cbn [np begun length] in *. pose proof (cost_text (rev acc) r). rewrite rev_length in *. lia.
      * eapply np_imp; [apply IH|]. cbn [begun length]. intros. lia.
    + destruct (c =? c_semi).
      * eapply np_bind'; [apply IH|]. intros r _ L. cbn [np begun length] in *. rewrite cost_cons. cbn [size_of]. lia.
      * destruct (_ || _); [exact I|]. eapply np_imp; [apply IH|]. cbn [begun]. intros. lia.
    + assert (K : forall q', np (lex (XmlModel.MTag (c :: acc) q') s) (fun evs => cost evs <= 1 + N.of_nat (length acc) + N.of_nat (S (length s)))) by (intros q'; eapply np_imp; [apply IH|]; cbn [begun length]; intros; lia).
      destruct q as [qc|]; [apply K|]. destruct (c =? c_gt); [|destruct (_ || _); apply K].
      eapply np_bind'; [apply parse_tag_np|]. intros e _ Le. rewrite rev_length in Le. eapply np_bind'; [apply IH|]. intros r _ L. cbn [np begun length] in *. rewrite cost_cons. lia.
Qed.
Lemma events_np s : np (read_events s) (fun evs => cost evs <= N.of_nat (length s)).
Proof. unfold read_events. eapply np_bind'; [apply lex_np|]. intros evs _ L. cbn [begun length] in L. destruct (nested [] evs); [exact L|exact I]. Qed.

(** ** Files *)

(** The part of a file still to be read. *)
Definition CI (evs : list event) : Prop := fine evs /\ placed evs /\ PanicSpec.total rows_in evs + 2 <= u32_max /\ PanicSpec.total columns_in evs <= u32_max.
Lemma CI_sfx r evs : CI evs -> sfx r evs -> CI r.
Proof.
  intros (F & P & R & C) S. split; [eapply fine_sfx; eauto|]. split; [eapply placed_sfx; eauto|]. pose proof (total_sfx rows_in _ _ S). pose proof (total_sfx columns_in _ _ S). lia.
Qed.
(** The workbook; [n] is what may be read yet. *)
Definition WS (n : N) (w : workbook) : Prop := sroom (wb_styles w) n /\ room (wb_valids w) n /\ Forall sheet_done (wb_sheets w).
Lemma WS_le n m w : WS n w -> m <= n -> WS m w.
Proof. intros (A & B & C) L. split; [eapply room_le; eauto|]. split; [eapply room_le; eauto|exact C]. Qed.
Lemma sfx_tail e (r : list event) : sfx r (e :: r). Proof. apply sfx_cons, sfx_refl. Qed.
Definition WI (n : N) (P : list event -> Prop) (w : workbook) (evs : list event) : Prop := P evs /\ WS (n + cost evs) w.
Lemma WI_sfx n (P : list event -> Prop) w evs r : (forall r evs, P evs -> sfx r evs -> P r) -> WI n P w evs -> sfx r evs -> WI n P w r.
Proof. intros H (A & B) S. split; [eapply H; eauto|]. eapply WS_le; [exact B|]. apply cost_sfx in S. lia. Qed.
Lemma WI_keep n (P : list event -> Prop) w w' evs : WI n P w evs -> wb_styles w' = wb_styles w -> wb_valids w' = wb_valids w -> wb_sheets w' = wb_sheets w -> WI n P w' evs.
Proof. unfold WI, WS. now intros H -> -> ->. Qed.
Lemma body_np n ign w e r : WI n CI w (e :: r) -> np (body_step ign w e r) (fun p => WI n CI (fst p) (snd p)).
Proof.
  intros H. assert (H' : WI n CI w r) by (eapply WI_sfx; [apply CI_sfx|exact H|apply sfx_tail]). unfold body_step. destruct (on_tag e) as [((t & a) & b)|] eqn:T; [|exact H'].
  destruct (negb b && str_eqb t t_valids) eqn:Q1.
  { destruct H' as ((F & X) & A & B & C). eapply np_bind'; [apply (valids_np (length r) n r valid0 _ F B)|]. intros (bk & r') E R. cbn [fst snd] in R. apply valids_sfx in E. split; [eapply CI_sfx; [split; [exact F|exact X]|exact E]|].
    destruct w. split; [|split; [exact R|exact C]]. eapply room_le; [exact A|]. apply cost_sfx in E. cbn [snd]. lia. }
  destruct (negb b && str_eqb t t_table) eqn:Q2.
  { apply andb_true_iff in Q2 as (Qb & Q2). apply str_eqb_eq in Q2. subst t. destruct b; [discriminate|]. destruct H as ((F & Pl & Lr & Lc) & _). destruct (fine_tag _ _ _ _ _ F T) as (_ & _ & N & _). destruct (N eq_refl) as (-> & _).
    rewrite !total_cons in *. eapply np_bind'; [apply read_table_np; [exact F|exact Pl|lia|lia]|]. intros (sh & r') E D. cbn [fst] in D. apply table_sfx in E. pose proof (WI_sfx _ _ _ _ _ CI_sfx H' E) as (C' & A & B & C). split; [exact C'|]. assert (C2 : Forall sheet_done (wb_sheets w ++ [sh])) by (apply Forall_app; split; [exact C|now constructor]).
    clear - A B C2. destruct w. split; [exact A|]. split; [exact B|exact C2]. }
  destruct (existsb _ _); [|exact H']. destruct H as ((F & _) & _). eapply np_bind'; [apply np_of; eapply xml_np; eassumption|]. intros (x & r') E _. apply xml_sfx in E. pose proof (WI_sfx _ _ _ _ _ CI_sfx H' E) as K.
  cbn [np fst snd]. eapply WI_keep; [exact K|..]; now destruct w.
Qed.
Lemma office_body_np n ign w r : WI n CI w r -> np (read_office_body ign w r) (fun p => WI n CI (fst p) (snd p)).
Proof.
  intros H. unfold read_office_body. eapply np_bind'; [apply (reading_np _ _ (WI n CI)); [|apply body_np|exact H]|].
  - intros s e r0 K. eapply WI_sfx; [apply CI_sfx|exact K|apply sfx_tail].
  - intros (p & r') _ K. exact K.
Qed.
Section Parts.
  Context (n : N) (P : list event -> Prop) (Ps : forall r evs, P evs -> sfx r evs -> P r) (Pf : forall evs, P evs -> fine evs).
  Lemma styles_part o w e r : WI n P w (e :: r) -> np (let* (b, r') := doc_step o (wb_styles w) e r in Ok (put_styles b w, r')) (fun p => WI n P (fst p) (snd p)).
  Proof.
    intros (F & A & B & C). eapply np_bind'; [apply (doc_step_np n o (wb_styles w) e r); split; [apply Pf, F|exact A]|]. intros (b & r') E (_ & R). cbn [fst snd] in R. apply doc_shrinks in E.
    assert (S : sfx r' (e :: r)) by (eapply sfx_trans; [exact E|apply sfx_tail]). split; [eapply Ps; eauto|]. destruct w. split; [exact R|]. split; [|exact C]. eapply room_le; [exact B|]. apply cost_sfx in S. cbn [snd]. lia.
  Qed.
  Lemma scripts_part w r : WI n P w r -> np (let* (p, r') := reading (length r) (Some t_scripts) scripts_step (wb_scripts w) r in Ok (put_scripts (snd p) w, r')) (fun p => WI n P (fst p) (snd p)).
  Proof.
    intros H. eapply np_bind'; [apply np_of, (reading_fine _ _ scripts_shrinks); [apply scripts_np|apply Pf, H]|]. intros (p & r') E _. apply reading_sfx in E; [|apply scripts_shrinks].
    pose proof (WI_sfx _ _ _ _ _ Ps H E) as K. eapply WI_keep; [exact K|..]; now destruct w.
  Qed.
  Lemma root_part file v w a r : WI n P w r -> np (let* w' := on_root file v w a in Ok (w', r)) (fun p => WI n P (fst p) (snd p)).
  Proof.
    intros H. eapply np_bind'; [apply np_of, root_np|]. intros w' E _. unfold on_root in E. apply bind_ok in E as ((x & m) & _ & E). injection E as <-. eapply WI_keep; [exact H|..]; destruct x, v, w; reflexivity.
  Qed.
  Lemma settings_part w r : WI n P w r -> np (let* (c, r') := config_loop (CInside None None [CFrame None None cm_new 0]) r in Ok (match c with Some c => put_config c w | None => w end, r')) (fun p => WI n P (fst p) (snd p)).
  Proof.
    intros H. eapply np_bind'; [apply np_of, settings_np|]. intros (c & r') E _. apply config_loop_sfx in E. pose proof (WI_sfx _ _ _ _ _ Ps H E) as K. eapply WI_keep; [exact K|..]; destruct c, w; reflexivity.
  Qed.
  Lemma meta_part w r : meta_calm r -> WI n P w r -> np (let* (m, r') := meta_loop (MInside (wb_meta w)) r in Ok (put_meta m w, r')) (fun p => WI n P (fst p) (snd p)).
  Proof.
    intros M H. eapply np_bind'; [apply np_of, meta_np; [exact M|apply Pf, H]|]. intros (m & r') E _. apply meta_loop_sfx in E. pose proof (WI_sfx _ _ _ _ _ Ps H E) as K. eapply WI_keep; [exact K|..]; now destruct w.
  Qed.
  Lemma file_np step text w : (forall evs, read_events text = Ok evs -> P evs) -> (forall w e r, WI n P w (e :: r) -> np (step w e r) (fun p => WI n P (fst p) (snd p))) ->
    WS (n + N.of_nat (length text)) w -> np (read_file step w text) (WS n).
  Proof.
    clear Pf. intros Hp Hs H. unfold read_file. eapply np_bind'; [apply events_np|]. intros evs E L.
    eapply np_bind'; [apply (reading_np None step (WI n P)); [intros s e r K; eapply WI_sfx; [exact Ps|exact K|apply sfx_tail]|exact Hs|]|].
    - split; [now apply Hp|]. eapply WS_le; [exact H|apply N.add_le_mono_l, L].
    - intros (p & r) _ (_ & K). cbn [np]. eapply WS_le; [exact K|lia].
  Qed.
End Parts.
Lemma CI_fine evs : CI evs -> fine evs. Proof. now intros (F & _). Qed.
Lemma content_np n ign w e r : WI n CI w (e :: r) -> np (content_step ign w e r) (fun p => WI n CI (fst p) (snd p)).
Proof.
  intros H. assert (H' : WI n CI w r) by (eapply WI_sfx; [apply CI_sfx|exact H|apply sfx_tail]). destruct e as [t a|t a|t|t|t|t]; cbn [content_step]; try exact H'.
  destruct (str_eqb t _); [apply root_part; exact H'|]. destruct (str_eqb t t_scripts); [apply (scripts_part _ _ CI_sfx CI_fine); exact H'|].
  destruct (existsb _ _); [apply (styles_part _ _ CI_sfx CI_fine); exact H|]. destruct (str_eqb t t_body); [now apply office_body_np|exact H'].
Qed.
Definition CM (evs : list event) : Prop := CI evs /\ meta_calm evs.
Lemma CM_sfx r evs : CM evs -> sfx r evs -> CM r.
Proof. intros (A & B) S. split; [eapply CI_sfx; eauto|eapply meta_calm_sfx; eauto]. Qed.
Lemma CM_fine evs : CM evs -> fine evs. Proof. intros (A & _). now apply CI_fine. Qed.
Lemma fods_np n ign w e r : WI n CM w (e :: r) -> np (fods_step ign w e r) (fun p => WI n CM (fst p) (snd p)).
Proof.
  intros H. assert (H' : WI n CM w r) by (eapply WI_sfx; [apply CM_sfx|exact H|apply sfx_tail]). destruct e as [t a|t a|t|t|t|t]; cbn [fods_step]; try exact H'.
  destruct (str_eqb t _); [apply root_part; exact H'|]. destruct (str_eqb t t_meta); [apply (meta_part _ _ CM_sfx CM_fine); [apply H'|exact H']|]. destruct (str_eqb t t_settings); [apply (settings_part _ _ CM_sfx); exact H'|].
  destruct (str_eqb t t_scripts); [apply (scripts_part _ _ CM_sfx CM_fine); exact H'|]. destruct (existsb _ _); [apply (styles_part _ _ CM_sfx CM_fine); exact H|].
  destruct (str_eqb t t_body); [|exact H']. destruct H' as ((C & M) & W). eapply np_imp; [apply (office_body_np n ign w r); now split|]. intros (w' & r') E (C' & W'). apply body_sfx in E. split; [|exact W']. split; [exact C'|]. eapply meta_calm_sfx; eauto.
Qed.
Lemma fods_only_np n ign w e r : WI n CI w (e :: r) -> np (fods_only_step ign w e r) (fun p => WI n CI (fst p) (snd p)).
Proof.
  intros H. assert (H' : WI n CI w r) by (eapply WI_sfx; [apply CI_sfx|exact H|apply sfx_tail]). destruct e as [t a|t a|t|t|t|t]; cbn [fods_only_step]; try exact H'. destruct (str_eqb t t_body); [now apply office_body_np|exact H'].
Qed.
Lemma styles_file_np n w e r : WI n fine w (e :: r) -> np (styles_file_step w e r) (fun p => WI n fine (fst p) (snd p)).
Proof.
  assert (Fs : forall r evs, fine evs -> sfx r evs -> fine r) by (intros; eapply fine_sfx; eauto).
  intros H. assert (H' : WI n fine w r) by (eapply WI_sfx; [exact Fs|exact H|apply sfx_tail]). destruct e as [t a|t a|t|t|t|t]; cbn [styles_file_step]; try exact H'.
  destruct (str_eqb t _); [apply root_part; exact H'|]. destruct (existsb _ _); [apply (styles_part _ _ Fs (fun _ x => x)); exact H|exact H'].
Qed.
Definition FM (evs : list event) : Prop := fine evs /\ meta_calm evs.
Lemma FM_sfx r evs : FM evs -> sfx r evs -> FM r.
Proof. intros (A & B) S. split; [eapply fine_sfx; eauto|eapply meta_calm_sfx; eauto]. Qed.
Lemma meta_file_np n w e r : WI n FM w (e :: r) -> np (meta_file_step w e r) (fun p => WI n FM (fst p) (snd p)).
Proof.
  intros H. assert (H' : WI n FM w r) by (eapply WI_sfx; [apply FM_sfx|exact H|apply sfx_tail]). destruct e as [t a|t a|t|t|t|t]; cbn [meta_file_step]; try exact H'.
  destruct (str_eqb t _); [apply root_part; exact H'|]. destruct (str_eqb t t_meta); [|exact H']. apply (meta_part _ _ FM_sfx (fun _ => @proj1 _ _)); [apply H'|exact H'].
Qed.
Lemma settings_file_np n w e r : WI n (fun _ => True) w (e :: r) -> np (settings_file_step w e r) (fun p => WI n (fun _ => True) (fst p) (snd p)).
Proof.
  intros H. assert (H' : WI n (fun _ => True) w r) by (eapply WI_sfx; [auto|exact H|apply sfx_tail]). destruct e as [t a|t a|t|t|t|t]; cbn [settings_file_step]; try exact H'.
  destruct (str_eqb t _); [apply root_part; exact H'|]. destruct (str_eqb t t_settings); [|exact H']. apply settings_part; [auto|exact H'].
Qed.
Lemma calc_np rep w : Forall sheet_done (wb_sheets w) -> calc_book rep w <> Panic.
Proof.
  intros H. unfold calc_book. apply bind_np; [|discriminate]. induction H as [|s l D _ IH]; [discriminate|]. cbn [calc_sheets]. apply bind_np; [now apply calculations_np|]. intros s'. apply bind_np; [exact IH|discriminate].
Qed.
Lemma work0_room c n : n <= u32_max -> WS n (work0 c).
Proof. intros L. split; [|split; [|constructor]]; (split; [intros f; cbn; lia|discriminate]). Qed.
