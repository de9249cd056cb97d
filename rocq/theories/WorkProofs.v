(** A workbook written and read: the files, part by part. *)
From Verif Require Import Base Lib OMap NumModel EnumModel RefsModel XmlModel XmlSpec XmlProofs CellModel CellIoModel CellIoProofs HeaderModel TreeProofs TableModel.
From Verif Require Import BookModel BookProps NumSpec NumProofs NumProps CellIoSpec CondProps ScriptModel ScriptProofs ValidModel ValidProofs ValidProps.
From Verif Require Import MetaModel MetaProofs ConfigModel ConfigSpec ConfigProofs ConfigIo FlowProofs StyleModel StyleSpec StyleProofs StyleDocProofs StyleProps.
From Verif Require Import OMapProofs HeaderSpec HeaderProofs TableSpec TableRun TableCells TableCols TableRead TablePlaced TableNested TableWhole CloneModel WorkModel WorkSpec WorkFlow ExtraProofs.
From Verif Require PkgProofs.
From Coq Require Import Permutation.

(** ** Styles, in whatever file they are *)

Definition hosting {T} (o : origin) (get : T -> stylebook) (put : stylebook -> T -> T) (step : T -> event -> list event -> res (T * list event)) : Prop :=
  (forall b w, get (put b w) = b) /\ (forall a b w, put a (put b w) = put a w) /\ (forall w, put (get w) w = w) /\ mute step
  /\ (forall w n a r, In n style_sections -> step w (EStart n a) r = let* (b, r') := doc_step o (get w) (EStart n a) r in Ok (put b w, r'))
  /\ (forall w n a r, step w (EEmpty n a) r = Ok (w, r)).
Definition hcarries (lb : bool) (o : origin) (cs : list call) (s s' : stylebook) : Prop :=
  exists evs, flows lb cs evs /\ forall T get put step (w : T), hosting o get put step -> get w = s -> passes None step w evs (put s' w).
Lemma hc_app lb o a b s s1 s2 : hcarries lb o a s s1 -> hcarries lb o b s1 s2 -> hcarries lb o (a ++ b) s s2.
Proof.
  intros (ea & A1 & A2) (eb & B1 & B2). exists (ea ++ eb). split; [now apply flows_app|]. intros T get put step w H G. eapply passes_app; [exact (A2 T get put step w H G)|].
  pose proof H as (H1 & H2 & _). rewrite <- (H2 s2 s1 w). apply (B2 T get put step); [exact H|apply H1].
Qed.
Lemma hc_section lb o tag st inner l s m :
  (tag, st) = (t_office_styles, styles_step o) \/ (tag, st) = (t_automatic, automatic_step o) \/ (tag, st) = (t_masters, masters_step) ->
  (forall stop sb sb', add_all m sb = Ok sb' -> carries lb stop st inner (map open_of l) sb sb') -> forall s', add_all m s = Ok s' ->
  hcarries lb o (CElem tag :: inner ++ [CEnd tag]) s s'.
Proof.
  intros T C s' A. destruct (C (Some tag) s s' A) as (evs & F & P & _). change (CElem tag :: inner ++ [CEnd tag]) with (CElem tag :: [] ++ inner ++ [CEnd tag]).
  exists (EStart tag (attrs_of []) :: evs ++ [EEnd tag; EText (nl lb)]). split.
  - apply flows_elem; [|constructor|exact F]. destruct T as [T|[T|T]]; injection T as -> ->; name_lit.
  - intros U get put step w (_ & _ & _ & M & H & _) G. apply passes_sub; [exact M|reflexivity|exact I|]. intros rest.
    rewrite H, G by (destruct T as [T|[T|T]]; injection T as -> ->; cbn; tauto).
    pose proof (passes_run _ _ _ _ _ _ (EText (nl lb) :: rest) eq_refl P) as R. revert R. generalize (coalesce (evs ++ EEnd tag :: EText (nl lb) :: rest)). intros E R.
    unfold doc_step. destruct T as [T|[T|T]]; injection T as -> ->.
    + replace (str_eqb t_office_styles t_fonts) with false by reflexivity. rewrite str_eqb_refl, R. reflexivity.
    + replace (str_eqb t_automatic t_fonts) with false by reflexivity. replace (str_eqb t_automatic t_office_styles) with false by reflexivity. rewrite str_eqb_refl, R. reflexivity.
    + replace (str_eqb t_masters t_fonts) with false by reflexivity. replace (str_eqb t_masters t_office_styles) with false by reflexivity.
      replace (str_eqb t_masters t_automatic) with false by reflexivity. rewrite str_eqb_refl, R. reflexivity.
Qed.
Definition fonts_in (o : origin) (b s : stylebook) : stylebook := SBook (put_fonts o (fonts_of b o) (sk_fonts s)) (sk_book s).
Lemma hc_fonts lb o b s : book_ok lb b -> hcarries lb o (write_fonts b o) s (fonts_in o b s).
Proof.
  intros (_ & _ & _ & F). unfold write_fonts, fonts_in, fonts_of. change (lit "style:name") with k_name in F.
  destruct (fonts_carry lb o (sk_fonts b) F o s) as (d & q' & evs & C1 & C2 & C3).
  set (e := negb (is_nil (sk_fonts b))) in *. assert (E : e = false -> flat_map (fun kv => font_calls o (snd kv)) (sk_fonts b) = []) by (unfold e; destruct (sk_fonts b); [auto|discriminate]).
  change (CElemIf e t_fonts :: flat_map (fun kv => font_calls o (snd kv)) (sk_fonts b) ++ [CEndIf e t_fonts])
    with (CElemIf e t_fonts :: [] ++ flat_map (fun kv => font_calls o (snd kv)) (sk_fonts b) ++ [CEndIf e t_fonts]).
  eexists. split; [apply flows_elem_if; [name_lit|constructor|exact C1|exact E]|]. cbn [attrs_of]. intros T get put step w (_ & _ & PG & M & H & HE) G. destruct e eqn:Ee.
  - apply passes_sub; [exact M|reflexivity|exact I|]. intros rest. rewrite H, G by (cbn; tauto).
    pose proof (passes_run _ _ _ _ _ _ (EText (nl lb) :: rest) eq_refl C2) as R. revert R. generalize (coalesce (evs ++ EEnd t_fonts :: EText (nl lb) :: rest)). intros E0 R.
    unfold doc_step. rewrite str_eqb_refl. unfold read_fonts. rewrite R. reflexivity.
  - assert (N : sk_fonts b = []) by (unfold e in Ee; destruct (sk_fonts b); [reflexivity|discriminate]). rewrite N. cbn [map filter put_fonts].
    apply passes_empty; [exact M|]. intros r. rewrite HE. do 2 f_equal. replace (SBook (sk_fonts s) (sk_book s)) with s by now destruct s. rewrite <- G. symmetry. apply PG.
Qed.
(** The parts about styles of the three kinds of files. *)
Lemma styles_part lb b cs ca cm : book_ok lb b -> write_office_styles b OStyles = Ok cs -> write_automatic b OStyles = Ok ca -> write_masters b = Ok cm ->
  exists m, Forall2 own_read (styles_items b OStyles ++ automatic_items b OStyles ++ masters_items b) m /\ forall sb sb', add_all m sb = Ok sb' ->
  hcarries lb OStyles (write_fonts b OStyles ++ cs ++ ca ++ cm) sb (fonts_in OStyles b (SBook (sk_fonts sb) (sk_book sb'))).
Proof.
  intros O Es Ea Em. destruct (styles_sect lb b OStyles cs O Es) as (is & -> & ms & Fs & Cs). destruct (automatic_sect lb b OStyles ca O Ea) as (ia & -> & ma & Fa & Ca).
  destruct (masters_sect lb OStyles b cm O Em) as (im & -> & mm & Fm & Cm).
  exists (ms ++ ma ++ mm). split.
  - apply (own_all OStyles); [|apply Forall2_app; [exact Fs|apply Forall2_app; assumption]].
    apply Forall_app; split; [apply styles_origin|apply Forall_app; split; [apply automatic_origin|now apply (masters_origin lb)]].
  - intros sb sb' Ad. pose proof (add_refont _ (put_fonts OStyles (fonts_of b OStyles) (sk_fonts sb)) _ _ Ad) as Ad'.
    apply add_two in Ad' as (s1 & A1 & Ad'). apply add_two in Ad' as (s2 & A2 & A3).
    eapply hc_app; [now apply hc_fonts|]. eapply hc_app; [|eapply hc_app].
    + apply (hc_section lb OStyles t_office_styles (styles_step OStyles) is (styles_items b OStyles) _ ms (or_introl eq_refl) Cs _ A1).
    + apply (hc_section lb OStyles t_automatic (automatic_step OStyles) ia (automatic_items b OStyles) _ ma (or_intror (or_introl eq_refl)) Ca _ A2).
    + apply (hc_section lb OStyles t_masters masters_step im (masters_items b) _ mm (or_intror (or_intror eq_refl)) Cm _ A3).
Qed.
Lemma content_part lb b ca : book_ok lb b -> write_automatic b OContent = Ok ca ->
  exists m, Forall2 own_read (automatic_items b OContent) m /\ forall sb sb', add_all m sb = Ok sb' ->
  hcarries lb OContent (write_fonts b OContent ++ ca) sb (fonts_in OContent b (SBook (sk_fonts sb) (sk_book sb'))).
Proof.
  intros O Ea. destruct (automatic_sect lb b OContent ca O Ea) as (ia & -> & ma & Fa & Ca).
  exists ma. split; [apply (own_all OContent); [apply automatic_origin|exact Fa]|].
  intros sb sb' Ad. pose proof (add_refont _ (put_fonts OContent (fonts_of b OContent) (sk_fonts sb)) _ _ Ad) as A2.
  eapply hc_app; [now apply hc_fonts|]. apply (hc_section lb OContent t_automatic (automatic_step OContent) ia (automatic_items b OContent) _ ma (or_intror (or_introl eq_refl)) Ca _ A2).
Qed.
Lemma flat_part lb b cs ca cm : book_ok lb b -> write_office_styles (convert b) OContent = Ok cs -> write_automatic (convert b) OContent = Ok ca -> write_masters (convert b) = Ok cm ->
  exists m, Forall2 own_read (styles_items (convert b) OContent ++ automatic_items (convert b) OContent ++ masters_items (convert b)) m /\ forall sb sb', add_all m sb = Ok sb' ->
  hcarries lb OContent (write_fonts (convert b) OContent ++ cs ++ ca ++ cm) sb (fonts_in OContent b (SBook (sk_fonts sb) (sk_book sb'))).
Proof.
  intros O0 Es Ea Em. pose proof (converted_ok lb b O0) as O. unfold fonts_in. change (fonts_of b OContent) with (fonts_of (convert b) OContent). revert Es Ea Em O. generalize (convert b). clear O0 b. intros b Es Ea Em O.
  destruct (styles_sect lb b OContent cs O Es) as (is & -> & ms & Fs & Cs). destruct (automatic_sect lb b OContent ca O Ea) as (ia & -> & ma & Fa & Ca).
  destruct (masters_sect lb OContent b cm O Em) as (im & -> & mm & Fm & Cm).
  exists (ms ++ ma ++ mm). split.
  - apply (own_all OContent); [|apply Forall2_app; [exact Fs|apply Forall2_app; assumption]].
    apply Forall_app; split; [apply styles_origin|apply Forall_app; split; [apply automatic_origin|now apply (masters_origin lb)]].
  - intros sb sb' Ad. pose proof (add_refont _ (put_fonts OContent (fonts_of b OContent) (sk_fonts sb)) _ _ Ad) as Ad'.
    apply add_two in Ad' as (s1 & A1 & Ad'). apply add_two in Ad' as (s2 & A2 & A3).
    eapply hc_app; [now apply hc_fonts|]. eapply hc_app; [|eapply hc_app].
    + apply (hc_section lb OContent t_office_styles (styles_step OContent) is (styles_items b OContent) _ ms (or_introl eq_refl) Cs _ A1).
    + apply (hc_section lb OContent t_automatic (automatic_step OContent) ia (automatic_items b OContent) _ ma (or_intror (or_introl eq_refl)) Ca _ A2).
    + apply (hc_section lb OContent t_masters masters_step im (masters_items b) _ mm (or_intror (or_intror eq_refl)) Cm _ A3).
Qed.
Lemma hosts_doc o : hosting o (fun b => b) (fun b _ => b) (doc_step o).
Proof.
  split; [auto|]. split; [auto|]. split; [auto|]. split; [apply mute_doc|]. split; [|reflexivity]. intros w n a r _. destruct (doc_step o w (EStart n a) r) as [[b r']| |]; reflexivity.
Qed.
(** A file of its own. *)
Lemma doc_utf8 : enc_ok (lit "UTF-8").
Proof. apply Forall_forall. intros c I J. cbn in I, J. repeat (destruct I as [I|I]; [subst c; repeat (destruct J as [J|J]; [discriminate|]); contradiction|]); contradiction. Qed.
Lemma hc_doc lb o n ns cs s s' : In n [lit "office:document-styles"; lit "office:document-content"; lit "office:document"] -> attrs_ok ns -> hcarries lb o cs s s' ->
  exists evs, read_events (render lb (CDtd (lit "UTF-8") :: CElem n :: attr_calls ns ++ cs ++ [CEnd n])) = Ok evs /\ read_doc o s evs = Ok s'.
Proof.
  intros In A (evs & F & P). specialize (P _ _ _ _ s (hosts_doc o) eq_refl).
  assert (N : name_ok n) by (destruct In as [<-|[<-|[<-|[]]]]; name_lit).
  assert (Q : forall r, doc_step o s (EStart n (attrs_of (attr_calls ns))) r = Ok (s, r)) by (intros r; destruct In as [<-|[<-|[<-|[]]]]; reflexivity).
  destruct (flows_doc lb (lit "UTF-8") n (attr_calls ns) cs evs doc_utf8 N (attr_calls_good _ A) F) as (head & text & R).
  eexists. split; [exact R|]. unfold read_doc.
  assert (Ps : passes None (doc_step o) s (EOther head :: EText text :: EStart n (attrs_of (attr_calls ns)) :: evs ++ [EEnd n; EText (nl lb)]) s').
  { apply (passes_app _ _ _ [EOther head] s); [apply passes_event; [reflexivity|exact I|reflexivity]|].
    apply (passes_app _ _ _ [EText text] s); [apply passes_text, mute_doc|].
    apply (passes_app _ _ _ [EStart n (attrs_of (attr_calls ns))] s); [apply passes_event; [reflexivity|exact I|exact Q]|].
    eapply passes_app; [exact P|]. apply (passes_app _ _ _ [EEnd n] s'); [apply passes_event; [reflexivity|exact I|reflexivity]|apply passes_text, mute_doc]. }
  rewrite (passes_end _ _ _ _ _ Ps). reflexivity.
Qed.

(** ** The body *)

Lemma mute_body ign : mute (body_step ign).
Proof. intros s t r. reflexivity. Qed.
Lemma known_tag n : existsb (str_eqb n) (prelude_tags ++ epilogue_tags) = true -> str_eqb n t_valids = false /\ str_eqb n t_table = false.
Proof.
  intros H. apply existsb_exists in H as (m & I & E). apply str_eqb_eq in E. subst m.
  cbn in I. repeat (destruct I as [<-|I]; [split; reflexivity|]). contradiction.
Qed.
Lemma extra_pass lb x : extra_ok x -> named_in (prelude_tags ++ epilogue_tags) x = true -> exists t, norm t = norm (broken lb x)
  /\ forall ign w, passes (Some t_body) (body_step ign) w (node_events lb x) (put_extra (wb_extra w ++ [t]) w).
Proof.
  destruct x as [t|n a c]; [contradiction|]. intros (N & R) K. unfold named_in in K. cbn [tag_name] in K. destruct (known_tag n K) as (K1 & K2). destruct c as [|y c].
  - exists (XTag n a []). split; [reflexivity|]. intros ign w. cbn [node_events]. apply passes_empty; [apply mute_body|]. intros r. unfold body_step. cbn [on_tag negb andb]. now rewrite K.
  - destruct (tree_read lb n a y c R) as (t & Ht & Hr). exists t. split; [exact Ht|]. intros ign w. cbn [node_events]. apply passes_sub; [apply mute_body|reflexivity|exact I|].
    intros rest. unfold body_step. cbn [on_tag negb andb]. rewrite K1, K2, K, Hr. reflexivity.
Qed.
Lemma put_extra_twice a b w : put_extra a (put_extra b w) = put_extra a w. Proof. now destruct w. Qed.
Lemma get_extra a w : wb_extra (put_extra a w) = a. Proof. now destruct w. Qed.
Lemma same_extra w : put_extra (wb_extra w) w = w. Proof. now destruct w. Qed.
Lemma extras_pass lb l : Forall extra_ok l -> Forall (fun x => named_in (prelude_tags ++ epilogue_tags) x = true) l ->
  exists ts, map norm ts = map (fun x => norm (broken lb x)) l /\ flows lb (flat_map write_node l) (flat_map (node_events lb) l)
  /\ forall ign w, passes (Some t_body) (body_step ign) w (flat_map (node_events lb) l) (put_extra (wb_extra w ++ ts) w).
Proof.
  intros O K. assert (F : flows lb (flat_map write_node l) (flat_map (node_events lb) l)).
  { apply flows_nodes. eapply Forall_impl; [|exact O]. intros [t|n a c]; [contradiction|]. cbn [extra_ok]. tauto. }
  assert (G : exists ts, map norm ts = map (fun x => norm (broken lb x)) l
    /\ forall ign w, passes (Some t_body) (body_step ign) w (flat_map (node_events lb) l) (put_extra (wb_extra w ++ ts) w)).
  { clear F. induction l as [|x l IH].
    - exists []. split; [reflexivity|]. intros ign w. rewrite app_nil_r, same_extra. apply passes_nil.
    - inversion O; subst. inversion K; subst. destruct (IH H2 H4) as (ts & E & P). destruct (extra_pass lb x H1 H3) as (t & Et & Pt). exists (t :: ts). cbn [map]. split; [congruence|].
      intros ign w. cbn [flat_map]. eapply passes_app; [apply Pt|]. pose proof (P ign (put_extra (wb_extra w ++ [t]) w)) as Q. rewrite get_extra, put_extra_twice, <- app_assoc in Q. exact Q. }
  destruct G as (ts & E & P). exists ts. auto.
Qed.
Lemma get_sheets a w : wb_sheets (put_sheets a w) = a. Proof. now destruct w. Qed.
Lemma put_sheets_twice a b w : put_sheets a (put_sheets b w) = put_sheets a w. Proof. now destruct w. Qed.
Lemma same_sheets w : put_sheets (wb_sheets w) w = w. Proof. now destruct w. Qed.
Lemma leaves_known x : leaves x = true -> named_in (prelude_tags ++ epilogue_tags) x = true.
Proof.
  destruct x as [t|n a c]; [discriminate|]. unfold leaves, named_in. cbn [tag_name]. intros H.
  apply existsb_exists in H as (m & I & E). apply existsb_exists. exists m. split; [|exact E]. cbn in I. repeat (destruct I as [<-|I]; [cbn; tauto|]). contradiction.
Qed.
Definition through (lb ign : bool) (ds : vtype -> option str) (sh sh' : sheet) : Prop :=
  table_through lb ign ds (bare sh) = Ok (bare sh') /\ map norm (tb_extra sh') = map (fun x => norm (broken lb x)) (filter stays (tb_extra sh)).
Definition moved (l : list sheet) : list xnode := flat_map (fun sh => filter leaves (tb_extra sh)) l.
Lemma sheets_pass lb ign ds l : forall cs, Forall sheet_fine l -> sheets_calls ds l = Ok cs ->
  exists l' ts evs, Forall2 (through lb ign ds) l l' /\ map norm ts = map (fun x => norm (broken lb x)) (moved l) /\ flows lb cs evs
  /\ forall w, passes (Some t_body) (body_step ign) w evs (put_extra (wb_extra w ++ ts) (put_sheets (wb_sheets w ++ l') w)).
Proof.
  induction l as [|sh l IH]; intros cs F H; cbn [sheets_calls] in H.
  - injection H as <-. exists [], [], []. split; [constructor|]. split; [reflexivity|]. split; [apply flows_nil|]. intros w.
    replace (put_extra (wb_extra w ++ []) (put_sheets (wb_sheets w ++ []) w)) with w by (destruct w; cbn; now rewrite !app_nil_r). apply passes_nil.
  - apply bind_ok in H as (ca & Ea & H). apply bind_ok in H as (cb & Eb & H). injection H as <-. inversion F; subst. destruct (IH cb H2 Eb) as (l' & ts & evs & T & Ets & Fl & P).
    destruct (sheet_flow_extra lb ign ds sh ca Ea H1) as (sh' & tx & a & inner & T1 & Ex & En & F1 & R).
    destruct (extras_pass lb (filter leaves (tb_extra sh))) as (tm & Em & _ & Pm).
    { destruct H1 as (_ & _ & _ & He). apply Forall_forall. intros x I. apply filter_In in I as (I & _). rewrite Forall_forall in He. auto. }
    { apply Forall_forall. intros x I. apply filter_In in I as (_ & I). now apply leaves_known. }
    exists (with_extra tx sh' :: l'), (tm ++ ts). eexists. split; [|split; [|split]].
    + constructor; [|exact T]. split; [|exact En]. rewrite T1. destruct sh'. cbn in Ex. subst. reflexivity.
    + unfold moved in *. cbn [flat_map]. rewrite !map_app. congruence.
    + apply flows_app; [exact F1|exact Fl].
    + intros w. eapply passes_app; [eapply passes_app|].
      * apply (passes_sub _ _ _ w (EStart t_table a) inner t_table (put_sheets (wb_sheets w ++ [with_extra tx sh']) w)); [apply mute_body|reflexivity|exact I|]. intros rest. unfold body_step. cbn [on_tag negb andb].
        replace (str_eqb t_table t_valids) with false by reflexivity. rewrite str_eqb_refl, R. reflexivity.
      * apply Pm.
      * match goal with |- passes _ _ ?w1 _ _ => pose proof (P w1) as Q end.
        match type of Q with passes _ _ _ _ ?x => match goal with |- passes _ _ _ _ ?y => replace y with x; [exact Q|] end end. destruct w; cbn. now rewrite <- !app_assoc.
Qed.
Lemma valids_pass lb vs cs bk bk' : Forall valid_ok vs -> write_validations vs = Ok cs -> valids_back lb vs bk bk' ->
  exists evs, flows lb cs evs /\ forall ign w, wb_valids w = bk -> passes (Some t_body) (body_step ign) w evs (put_valids bk' w).
Proof.
  intros V W B. destruct vs as [|v vs].
  - cbn in W. injection W as <-. destruct B as (? & ? & _ & _ & ->). exists []. split; [apply flows_nil|]. intros ign w <-. replace (put_valids (wb_valids w) w) with w by now destruct w. apply passes_nil.
  - destruct (valids_flow lb (v :: vs) cs bk bk' V ltac:(discriminate) W B) as (inner & F & R). eexists. split; [exact F|]. intros ign w E.
    apply passes_sub; [apply mute_body|reflexivity|exact I|]. intros rest. unfold body_step. cbn [on_tag negb andb]. rewrite str_eqb_refl, E, R by lia. reflexivity.
Qed.

(** What is read of a body: into a workbook without validations. *)
Definition body_into (bk' : book vbody) (l' : list sheet) (ts : list xnode) (w : workbook) : workbook :=
  put_extra (wb_extra w ++ ts) (put_sheets (wb_sheets w ++ l') (put_valids bk' w)).
Lemma named_app a b x : named_in (a ++ b) x = named_in a x || named_in b x.
Proof. unfold named_in. apply existsb_app. Qed.
Lemma body_pass lb ign w cs bk' : Forall sheet_fine (wb_sheets w) -> Forall extra_ok (wb_extra w) -> Forall valid_ok (all_valids w) -> valids_back lb (all_valids w) book0 bk' ->
  write_body w = Ok cs ->
  exists l' ts evs, Forall2 (through lb ign (wb_defaults w)) (wb_sheets w) l'
  /\ map norm ts = map (fun x => norm (broken lb x)) (filter (named_in prelude_tags) (wb_extra w) ++ moved (wb_sheets w) ++ filter (named_in epilogue_tags) (wb_extra w))
  /\ flows lb cs (EStart t_body [] :: evs ++ [EEnd t_body; EText (nl lb)])
  /\ forall w0, wb_valids w0 = book0 -> forall rest, read_office_body ign w0 (coalesce (evs ++ EEnd t_body :: EText (nl lb) :: rest)) = Ok (body_into bk' l' ts w0, coalesce (EText (nl lb) :: rest)).
Proof.
  intros Fs Fx Fv Vb H. unfold write_body in H. apply bind_ok in H as (cv & Ev & H). apply bind_ok in H as (cst & Est & H).
  match type of H with Ok ?x = Ok _ => assert (E : cs = x) by (injection H; auto); clear H; subst cs end.
  destruct (extras_pass lb (filter (named_in prelude_tags) (wb_extra w))) as (t1 & N1 & F1 & P1).
  { apply Forall_forall. intros x I. apply filter_In in I as (I & _). rewrite Forall_forall in Fx. auto. }
  { apply Forall_forall. intros x I. apply filter_In in I as (_ & I). now rewrite named_app, I. }
  destruct (extras_pass lb (filter (named_in epilogue_tags) (wb_extra w))) as (t2 & N2 & F2 & P2).
  { apply Forall_forall. intros x I. apply filter_In in I as (I & _). rewrite Forall_forall in Fx. auto. }
  { apply Forall_forall. intros x I. apply filter_In in I as (_ & I). now rewrite named_app, I, orb_true_r. }
  destruct (sheets_pass lb ign _ _ _ Fs Est) as (l' & tm & es & T & Em & F3 & P3). destruct (valids_pass lb _ _ _ _ Fv Ev Vb) as (ev & F4 & P4).
  set (pe := flat_map (node_events lb) (filter (named_in prelude_tags) (wb_extra w))) in *. set (ep := flat_map (node_events lb) (filter (named_in epilogue_tags) (wb_extra w))) in *.
  exists l', (t1 ++ tm ++ t2), (EStart t_spreadsheet [] :: (pe ++ ev ++ es ++ ep) ++ [EEnd t_spreadsheet; EText (nl lb)]).
  split; [exact T|]. split; [rewrite !map_app; congruence|]. split.
  - pose proof (flows_app _ _ _ _ _ F1 (flows_app _ _ _ _ _ F4 (flows_app _ _ _ _ _ F3 F2))) as F.
    pose proof (flows_elem lb t_spreadsheet [] _ _ ltac:(name_lit) (Forall_nil _) F) as G. pose proof (flows_elem lb t_body [] _ _ ltac:(name_lit) (Forall_nil _) G) as G2.
    cbn [attrs_of app] in G2. cbn [app]. rewrite <- ?app_assoc in G2. rewrite <- ?app_assoc. exact G2.
  - intros w0 E0 rest. unfold read_office_body.
    assert (P : passes (Some t_body) (body_step ign) w0 (EStart t_spreadsheet [] :: (pe ++ ev ++ es ++ ep) ++ [EEnd t_spreadsheet; EText (nl lb)]) (body_into bk' l' (t1 ++ tm ++ t2) w0)).
    { apply (passes_app _ _ _ [EStart t_spreadsheet []] w0); [apply passes_event; [reflexivity|exact I|reflexivity]|].
      apply (passes_app _ _ _ (pe ++ ev ++ es ++ ep) (body_into bk' l' (t1 ++ tm ++ t2) w0)).
      - eapply passes_app; [apply P1|]. eapply passes_app; [apply P4; destruct w0; exact E0|]. eapply passes_app; [apply P3|].
        match goal with |- passes _ _ ?w1 _ _ => pose proof (P2 ign w1) as Q end.
        match type of Q with passes _ _ _ _ ?x => match goal with |- passes _ _ _ _ ?y => replace y with x; [exact Q|] end end. destruct w0; unfold body_into; cbn. now rewrite <- !app_assoc.
      - apply (passes_app _ _ _ [EEnd t_spreadsheet] (body_into bk' l' (t1 ++ tm ++ t2) w0)); [apply passes_event; [reflexivity|exact I|reflexivity]|apply passes_text, mute_body]. }
    rewrite (passes_run _ _ _ _ _ _ _ eq_refl P). reflexivity.
Qed.

(** ** The styles that are read *)

Lemma quiet_nil lb : quiet lb [].
Proof. exists []. split; [apply flows_nil|]. split; [constructor|intros n a []]. Qed.
Lemma styles_both b : book_ok false b -> small b -> forall cs ca cm cc, write_office_styles b OStyles = Ok cs -> write_automatic b OStyles = Ok ca -> write_masters b = Ok cm -> write_automatic b OContent = Ok cc ->
  exists s1 s2, hcarries false OStyles (write_fonts b OStyles ++ cs ++ ca ++ cm) stylebook0 s1 /\ hcarries false OContent (write_fonts b OContent ++ cc) s1 s2
  /\ (exists s3, hcarries false OContent (write_fonts b OContent ++ cc) stylebook0 s3) /\ styles_after b s2.
Proof.
  intros O Sm cs ca cm cc Es Ea Em Ec. destruct (styles_part false b cs ca cm O Es Ea Em) as (m1 & F1 & H1). destruct (content_part false b cc O Ec) as (m2 & F2 & H2).
  pose proof (Forall2_app F1 F2) as F. destruct (items_length b OStyles) as (L1 & _). destruct (items_length b OContent) as (_ & L2).
  destruct (StyleProps.add_start (m1 ++ m2) _ F) as (sb' & Ad); [rewrite app_length; unfold small in Sm; lia|].
  pose proof Ad as Ad0. apply add_two in Ad0 as (s1 & A1 & A2). pose proof (H1 _ _ A1) as P1.
  pose proof (add_refont _ (put_fonts OStyles (fonts_of b OStyles) (sk_fonts stylebook0)) _ _ A2) as A2'.
  pose proof (H2 _ _ A2') as P2. eexists _, _. split; [exact P1|]. split; [exact P2|].
  split. { destruct (StyleProps.add_start m2 _ F2) as (s3 & A3); [unfold small in Sm; lia|]. eexists. exact (H2 _ _ A3). }
  destruct (hc_doc false OStyles (lit "office:document-styles") [] _ _ _ ltac:(cbn; auto) (Forall_nil _) P1) as (es & R1 & D1).
  destruct (hc_doc false OContent (lit "office:document-content") [] _ _ _ ltac:(cbn; auto) (Forall_nil _) P2) as (ec & R2 & D2).
  destruct (StyleProps.C45_ods [] [] [] [] b (CDtd (lit "UTF-8") :: CElem (lit "office:document-styles") :: attr_calls [] ++ (write_fonts b OStyles ++ cs ++ ca ++ cm) ++ [CEnd (lit "office:document-styles")])
    (CDtd (lit "UTF-8") :: CElem (lit "office:document-content") :: attr_calls [] ++ (write_fonts b OContent ++ cc) ++ [CEnd (lit "office:document-content")])) as (es' & ec' & b' & R1' & R2' & D & X).
  1: exact O. 1: exact Sm. 1, 2: constructor. 1, 2: apply quiet_nil.
  1: { unfold styles_doc. rewrite Es, Ea, Em. cbn [bind]. rewrite <- !app_assoc. reflexivity. }
  1: { unfold content_doc. rewrite Ec. cbn [bind app]. rewrite <- !app_assoc. reflexivity. }
  rewrite R1 in R1'. rewrite R2 in R2'. injection R1' as <-. injection R2' as <-. unfold StyleModel.read_ods in D. rewrite D1 in D. cbn [bind] in D. pose proof (eq_trans (eq_sym D2) D) as Q. injection Q as <-. exact X.
Qed.
Lemma styles_flat b : book_ok true b -> small b -> forall cs ca cm, write_office_styles (convert b) OContent = Ok cs -> write_automatic (convert b) OContent = Ok ca -> write_masters (convert b) = Ok cm ->
  exists s, hcarries true OContent (write_fonts (convert b) OContent ++ cs ++ ca ++ cm) stylebook0 s /\ flat_styles_after b s.
Proof.
  intros O Sm cs ca cm Es Ea Em. destruct (flat_part true b cs ca cm O Es Ea Em) as (m & F & H). destruct (items_length (convert b) OContent) as (L & _).
  pose proof (StyleProps.small_converted b Sm) as Sm'. destruct (StyleProps.add_start m _ F) as (sb' & Ad); [unfold small in Sm'; lia|]. pose proof (H _ _ Ad) as P. eexists. split; [exact P|].
  destruct (hc_doc true OContent (lit "office:document") [] _ _ _ ltac:(cbn; auto) (Forall_nil _) P) as (ec & R & D).
  destruct (StyleProps.C45_fods [] [] [] b (CDtd (lit "UTF-8") :: CElem (lit "office:document") :: attr_calls [] ++ (write_fonts (convert b) OContent ++ cs ++ ca ++ cm) ++ [CEnd (lit "office:document")]))
    as (ec' & b' & R' & D' & X); [exact O|exact Sm|constructor|apply quiet_nil|apply quiet_nil| |].
  { unfold fods_doc. rewrite Es, Ea, Em. cbn [bind app]. rewrite <- !app_assoc. reflexivity. }
  rewrite R in R'. injection R' as <-. unfold StyleModel.read_fods in D'. rewrite D in D'. injection D' as <-. exact X.
Qed.

(** ** Scripts, when there is none *)

Lemma flows_if lb t : name_ok t -> flows lb [CElemIf false t] [EEmpty t []; EText (nl lb)].
Proof.
  intros N. split; [intros rest _; exact I|]. split; [intros rest H q; cbn [app]; apply sn_elem_if; auto|]. split; [intros st rest H; exact H|].
  intros p rest H. cbn [app asked]. rewrite asked_flush by exact H. reflexivity.
Qed.
Lemma flows_fi lb t : name_ok t -> flows lb [CEndIf false t] [].
Proof.
  intros N. split; [intros rest _; exact I|]. split; [intros rest H q; cbn [app]; apply sn_end_if; auto|]. split; [intros st rest H; exact H|].
  intros p rest H. cbn [app asked]. reflexivity.
Qed.
Definition listener_events (lb : bool) (l : listener) : list event := [EEmpty t_listener (attrs_of (tl (listener_calls l))); EText (nl lb)].
Lemma scripts_flow lb ls : flows lb (write_office_scripts [] ls) ([EEmpty t_scripts []; EText (nl lb)] ++ flat_map (listener_events lb) ls).
Proof.
  unfold write_office_scripts. cbn [flat_map app]. change (CElemIf false t_scripts :: flat_map listener_calls ls ++ [CEndIf false t_scripts]) with ([CElemIf false t_scripts] ++ flat_map listener_calls ls ++ [CEndIf false t_scripts]).
  change (EEmpty t_scripts [] :: EText (nl lb) :: flat_map (listener_events lb) ls) with ([EEmpty t_scripts []; EText (nl lb)] ++ flat_map (listener_events lb) ls).
  apply flows_app; [apply flows_if; name_lit|]. rewrite <- (app_nil_r (flat_map (listener_events lb) ls)). apply flows_app; [|apply flows_fi; name_lit].
  apply flows_flat_map. apply Forall_forall. intros l _. apply flows_empty; [name_lit|]. cbn [tl listener_calls]. do 6 (apply Forall_cons; [cbn; name_lit|]). constructor.
Qed.
Lemma scripts_pass {T} lb stop (step : T -> event -> list event -> res (T * list event)) ls : mute step -> (forall w n a r, step w (EEmpty n a) r = Ok (w, r)) ->
  forall w, passes stop step w ([EEmpty t_scripts []; EText (nl lb)] ++ flat_map (listener_events lb) ls) w.
Proof.
  intros M E w. eapply passes_app; [apply passes_empty; [exact M|intros r; apply E]|]. induction ls as [|l ls IH]; [apply passes_nil|]. cbn [flat_map].
  eapply passes_app; [apply passes_empty; [exact M|intros r; apply E]|exact IH].
Qed.

(** ** Namespaces *)

Lemma del_keys {V} k (m : amap V) : forall x, In x (map fst (am_del k m)) -> In x (map fst m) /\ x <> k.
Proof.
  intros x I. apply in_map_iff in I as ([a v] & E & I). cbn in E. subst a. unfold am_del in I. apply filter_In in I as (I & N). cbn [fst] in N. split; [apply in_map_iff; eexists; split; [|exact I]; reflexivity|].
  intros ->. now rewrite str_eqb_refl in N.
Qed.
Lemma del_nodup {V} k (m : amap V) : NoDup (map fst m) -> NoDup (map fst (am_del k m)).
Proof.
  induction m as [|[a v] m IH]; intros N; [constructor|]. inversion N; subst. unfold am_del in *. cbn [filter fst]. destruct (negb (str_eqb a k)); [|auto]. cbn [map fst]. constructor; [|auto].
  intros I. apply H1. apply (del_keys k m a I).
Qed.
Lemma put_nodup {V} k (v : V) m : NoDup (map fst m) -> NoDup (map fst (am_put k v m)).
Proof. intros N. unfold am_put. cbn [map fst]. constructor; [|now apply del_nodup]. intros I. apply del_keys in I as (_ & I). now apply I. Qed.
Lemma put_all_nodup l : forall m, NoDup (map fst m) -> NoDup (map fst (put_all l m)).
Proof. induction l as [|[k v] l IH]; intros m N; [exact N|]. unfold put_all in *. cbn [fold_left fst snd]. apply IH. now apply put_nodup. Qed.
Lemma put_all_keeps (P : str * str -> Prop) l : forall m, Forall P l -> Forall P m -> Forall P (put_all l m).
Proof.
  induction l as [|[k v] l IH]; intros m A B; [exact B|]. inversion A; subst. unfold put_all in *. cbn [fold_left fst snd]. apply IH; [assumption|]. unfold am_put. constructor; [assumption|].
  apply Forall_forall. intros x I. apply filter_In in I as (I & _). rewrite Forall_forall in B. auto.
Qed.
Lemma put_all_ok l m : ns_ok l -> ns_ok m -> ns_ok (put_all l m).
Proof. intros (_ & A) (N & B). split; [now apply put_all_nodup|now apply put_all_keeps]. Qed.
Lemma perm_ok l m : Permutation l m -> ns_ok m -> ns_ok l.
Proof.
  intros P (N & F). split; [eapply Permutation_NoDup; [apply Permutation_map, Permutation_sym, P|exact N]|]. apply Forall_forall. intros x I. rewrite Forall_forall in F. apply F. now apply (Permutation_in x P).
Qed.
Lemma perm_get (l m : amap str) k : Permutation l m -> NoDup (map fst m) -> am_get k l = am_get k m.
Proof.
  intros P N. assert (N' : NoDup (map fst l)) by (eapply Permutation_NoDup; [apply Permutation_map, Permutation_sym, P|exact N]).
  destruct (am_get k l) as [v|] eqn:E.
  - apply PkgProofs.am_get_entry in E. symmetry. apply PkgProofs.am_get_of; [exact N|]. now apply (Permutation_in _ P).
  - symmetry. apply PkgProofs.am_get_none. intros I. apply in_map_iff in I as ([a v] & Ea & I). cbn in Ea. subst a. apply (Permutation_in _ (Permutation_sym P)) in I.
    apply (PkgProofs.am_get_of k v l N') in I. congruence.
Qed.
Lemma put_all_get l : forall m k, NoDup (map fst l) -> am_get k (put_all l m) = match am_get k l with Some v => Some v | None => am_get k m end.
Proof.
  induction l as [|[a v] l IH]; intros m k N; [reflexivity|]. inversion N; subst. unfold put_all in *. cbn [fold_left fst snd am_get]. rewrite IH by assumption. rewrite am_get_put. destruct (str_eqb a k) eqn:E; [|reflexivity].
  apply str_eqb_eq in E. subst a. now rewrite PkgProofs.am_get_none by assumption.
Qed.
Lemma root_fold_ns l : forall s, Forall (fun kv => starts_with (lit "xmlns:") (fst kv) = true) l -> root_fold s l = Ok (fst s, put_all l (snd s)).
Proof.
  induction l as [|[k v] l IH]; intros [o m] F; [reflexivity|]. inversion F; subst. cbn [fst] in H1. cbn [root_fold]. unfold root_attr at 1. cbn [fst snd]. rewrite H1.
  destruct (str_eqb k (lit "office:version")) eqn:E; [apply str_eqb_eq in E; subst k; vm_compute in H1; discriminate|]. cbn [bind]. rewrite IH by assumption. reflexivity.
Qed.
Lemma root_fold_app a : forall s b, root_fold s (a ++ b) = let* s' := root_fold s a in root_fold s' b.
Proof. induction a as [|kv a IH]; intros s b; [reflexivity|]. cbn [app root_fold]. destruct (root_attr s kv) as [s'| |]; [apply IH|reflexivity|reflexivity]. Qed.
Lemma read_root_back w l : Forall (fun kv => starts_with (lit "xmlns:") (fst kv) = true) l ->
  read_root (root_attrs w l) = Ok (Some (wb_version w), put_all l []) /\ read_root (root_attrs w l ++ [(lit "office:mimetype", mimetype)]) = Ok (Some (wb_version w), put_all l []).
Proof.
  intros F. unfold read_root, root_attrs. split; rewrite ?root_fold_app, (root_fold_ns l) by exact F; reflexivity.
Qed.
Lemma root_attrs_ok w l : ns_ok l -> attrs_ok (root_attrs w l) /\ attrs_ok (root_attrs w l ++ [(lit "office:mimetype", mimetype)]) /\ Forall (fun kv => starts_with (lit "xmlns:") (fst kv) = true) l.
Proof.
  intros (_ & F). assert (A : attrs_ok (root_attrs w l)).
  { unfold attrs_ok, root_attrs. apply Forall_app. split; [eapply Forall_impl; [|exact F]; cbn; tauto|]. constructor; [cbn [fst]; name_lit|constructor]. }
  split; [exact A|]. split; [apply Forall_app; split; [exact A|]; constructor; [cbn [fst]; name_lit|constructor]|]. eapply Forall_impl; [|exact F]. cbn. tauto.
Qed.

(** ** Files *)

Definition calm {T} (step : T -> event -> list event -> res (T * list event)) : Prop := forall w e r, match e with EStart _ _ => True | _ => step w e r = Ok (w, r) end.
Lemma calm_mute {T} (step : T -> event -> list event -> res (T * list event)) : calm step -> mute step.
Proof. intros C s t r. exact (C s (EText t) r). Qed.
Lemma file_read lb step n a cs evs w w1 w2 : calm step -> name_ok n -> attrs_ok a -> flows lb cs evs -> (forall r, step w (EStart n a) r = Ok (w1, r)) -> passes None step w1 evs w2 ->
  read_file step w (render lb (CDtd (lit "UTF-8") :: CElem n :: attr_calls a ++ cs ++ [CEnd n])) = Ok w2.
Proof.
  intros C N A F S P. destruct (flows_doc lb (lit "UTF-8") n (attr_calls a) cs evs doc_utf8 N (attr_calls_good _ A) F) as (head & text & R). unfold read_file. rewrite R. cbn [bind]. rewrite attrs_of_calls.
  assert (Ps : passes None step w (EOther head :: EText text :: EStart n a :: evs ++ [EEnd n; EText (nl lb)]) w2).
  { apply (passes_app _ _ _ [EOther head] w); [apply passes_event; [reflexivity|exact I|intros r; exact (C w (EOther head) r)]|].
    apply (passes_app _ _ _ [EText text] w); [apply passes_text, calm_mute, C|].
    apply (passes_app _ _ _ [EStart n a] w1); [apply passes_event; [reflexivity|exact I|exact S]|].
    eapply passes_app; [exact P|]. apply (passes_app _ _ _ [EEnd n] w2); [apply passes_event; [reflexivity|exact I|intros r; exact (C w2 (EEnd n) r)]|apply passes_text, calm_mute, C]. }
  rewrite (passes_end _ _ _ _ _ Ps). reflexivity.
Qed.
Lemma calm_steps : calm meta_file_step /\ calm settings_file_step /\ calm styles_file_step /\ (forall ign, calm (content_step ign) /\ calm (fods_step ign) /\ calm (fods_only_step ign)).
Proof. repeat split; intros w [] r; cbn; auto. Qed.

Lemma meta_pass lb m step : calm step -> meta_ok m ->
  (forall w a r, step w (EStart t_meta a) r = let* (m, r') := meta_loop (MInside (wb_meta w)) r in Ok (put_meta m w, r')) ->
  exists evs, flows lb (write_office_meta m) evs /\ forall w, wb_meta w = meta0 -> passes None step w evs (put_meta (meta_back m) w).
Proof.
  intros C M S. destruct (meta_flow lb m M) as (evs & F & R). eexists. split; [exact F|]. intros w E. apply passes_sub; [now apply calm_mute|reflexivity|exact I|]. intros rest. rewrite S, E, R. reflexivity.
Qed.
Lemma config_pass c : sound c -> settings_ok (plain c) -> exists cs, write_settings c = Ok cs /\ forall lb, exists evs c', flows lb cs evs /\ sound c' /\ plain c' = strip (plain c)
  /\ forall step, calm step -> (forall w a r, step w (EStart t_settings a) r = let* (c, r') := config_loop (CInside None None [CFrame None None cm_new 0]) r in
        Ok (match c with Some c => put_config c w | None => w end, r')) -> forall w, passes None step w evs (put_config c' w).
Proof.
  intros Sd Ok1. destruct (config_flow c Sd Ok1) as (cs & W & H). exists cs. split; [exact W|]. intros lb. destruct (H lb) as (evs & F & c' & S' & P & R). eexists _, c'.
  split; [exact F|]. split; [exact S'|]. split; [exact P|]. intros step C S w. apply passes_sub; [now apply calm_mute|reflexivity|exact I|]. intros rest. rewrite S, R. reflexivity.
Qed.
Lemma hosts o step : calm step -> (forall w n a r, In n style_sections -> step w (EStart n a) r = let* (b, r') := doc_step o (wb_styles w) (EStart n a) r in Ok (put_styles b w, r')) ->
  hosting o wb_styles put_styles step.
Proof.
  intros C S. split; [intros b []; reflexivity|]. split; [intros a b []; reflexivity|]. split; [intros []; reflexivity|]. split; [now apply calm_mute|]. split; [exact S|]. intros w n a r. exact (C w (EEmpty n a) r).
Qed.

(** The four files. *)
Definition with_ns (file : str) (l : amap str) (w : workbook) : workbook := put_ns (am_put file (put_all l []) (wb_ns w)) w.
Lemma meta_file lb w l w0 : ns_ok l -> meta_ok (wb_meta w) -> wb_meta w0 = meta0 ->
  read_file meta_file_step w0 (render lb (meta_calls w l)) = Ok (put_meta (meta_back (wb_meta w)) (with_ns (lit "meta.xml") l w0)).
Proof.
  intros N M E. destruct (root_attrs_ok w l N) as (A & _ & X). destruct (read_root_back w l X) as (R & _). destruct calm_steps as (C & _).
  destruct (meta_pass lb (wb_meta w) meta_file_step C M) as (evs & F & P); [reflexivity|].
  apply (file_read lb meta_file_step (lit "office:document-meta") (root_attrs w l) (write_office_meta (wb_meta w)) evs w0 (with_ns (lit "meta.xml") l w0)); [exact C|name_lit|exact A|exact F| |].
  - intros r. unfold meta_file_step. rewrite str_eqb_refl. unfold on_root. rewrite R. reflexivity.
  - apply P. now destruct w0.
Qed.
Lemma settings_file w l : ns_ok l -> sound (wb_config w) -> settings_ok (plain (wb_config w)) -> exists cs c', settings_calls w l = Ok cs /\ sound c' /\ plain c' = strip (plain (wb_config w))
  /\ forall w0, read_file settings_file_step w0 (render false cs) = Ok (put_config c' (with_ns (lit "settings.xml") l w0)).
Proof.
  intros N S O. destruct (root_attrs_ok w l N) as (A & _ & X). destruct (read_root_back w l X) as (R & _). destruct calm_steps as (_ & C & _).
  destruct (config_pass _ S O) as (cs & W & H). destruct (H false) as (evs & c' & F & S' & P & Q).
  unfold settings_calls, write_ods_settings. rewrite W. eexists _, c'. split; [reflexivity|]. split; [exact S'|]. split; [exact P|]. intros w0.
  apply (file_read false settings_file_step (lit "office:document-settings") (root_attrs w l) cs evs w0 (with_ns (lit "settings.xml") l w0)); [exact C|name_lit|exact A|exact F| |].
  - intros r. unfold settings_file_step. rewrite str_eqb_refl. unfold on_root. rewrite R. reflexivity.
  - apply Q; [exact C|reflexivity].
Qed.
Lemma in_sections n : In n style_sections -> existsb (str_eqb n) style_sections = true.
Proof. intros I. apply existsb_exists. exists n. split; [exact I|apply str_eqb_refl]. Qed.
Lemma styles_xml w l cs s w0 : ns_ok l -> hcarries false OStyles cs (wb_styles w0) s ->
  read_file styles_file_step w0 (render false (CDtd (lit "UTF-8") :: CElem (lit "office:document-styles") :: attr_calls (root_attrs w l) ++ cs ++ [CEnd (lit "office:document-styles")]))
  = Ok (put_styles s (with_ns (lit "styles.xml") l w0)).
Proof.
  intros N (evs & F & P). destruct (root_attrs_ok w l N) as (A & _ & X). destruct (read_root_back w l X) as (R & _). destruct calm_steps as (_ & _ & C & _).
  apply (file_read false styles_file_step _ (root_attrs w l) cs evs w0 (with_ns (lit "styles.xml") l w0)); [exact C|name_lit|exact A|exact F| |].
  - intros r. unfold styles_file_step. rewrite str_eqb_refl. unfold on_root. rewrite R. reflexivity.
  - apply (P _ wb_styles put_styles); [|now destruct w0]. apply hosts; [exact C|]. intros v n a r I. unfold styles_file_step. rewrite (in_sections n I).
    destruct (str_eqb n (lit "office:document-styles")) eqn:E; [apply str_eqb_eq in E; subst n; cbn in I; repeat (destruct I as [I|I]; [discriminate|]); contradiction|]. reflexivity.
Qed.
Lemma content_hosts ign : hosting OContent wb_styles put_styles (content_step ign) /\ hosting OContent wb_styles put_styles (fods_step ign).
Proof.
  destruct calm_steps as (_ & _ & _ & C). destruct (C ign) as (C1 & C2 & _).
  split; apply hosts; auto; intros v n a r I; cbn in I; repeat (destruct I as [<-|I]; [reflexivity|]); contradiction.
Qed.
(** The body of a file: what is read of it into a workbook with neither sheets nor validations. *)
Lemma content_xml w l ca cs ign w0 s bk' : ns_ok l -> fst (wb_scripts w) = [] -> hcarries false OContent ca (wb_styles w0) s ->
  Forall sheet_fine (wb_sheets w) -> Forall extra_ok (wb_extra w) -> Forall valid_ok (all_valids w) -> valids_back false (all_valids w) book0 bk' -> write_body w = Ok cs -> wb_valids w0 = book0 ->
  exists l' ts, Forall2 (through false ign (wb_defaults w)) (wb_sheets w) l'
  /\ map norm ts = map (fun x => norm (broken false x)) (filter (named_in prelude_tags) (wb_extra w) ++ moved (wb_sheets w) ++ filter (named_in epilogue_tags) (wb_extra w))
  /\ read_file (content_step ign) w0 (render false (CDtd (lit "UTF-8") :: CElem (lit "office:document-content") :: attr_calls (root_attrs w l) ++ (scripts_calls w ++ ca ++ cs) ++ [CEnd (lit "office:document-content")]))
     = Ok (body_into bk' l' ts (put_styles s (put_version (wb_version w) (with_ns (lit "content.xml") l w0)))).
Proof.
  intros N Sc (ea & Fa & Pa) Fs Fx Fv Vb W E0. destruct (root_attrs_ok w l N) as (A & _ & X). destruct (read_root_back w l X) as (R & _). destruct calm_steps as (_ & _ & _ & C). destruct (C ign) as (C1 & _).
  destruct (body_pass false ign w cs bk' Fs Fx Fv Vb W) as (l' & ts & evs & T & M & F & B). exists l', ts. split; [exact T|]. split; [exact M|].
  unfold scripts_calls. rewrite Sc.
  eapply (file_read false (content_step ign) _ (root_attrs w l) _ _ w0 (put_version (wb_version w) (with_ns (lit "content.xml") l w0)));
    [exact C1|name_lit|exact A|apply flows_app; [apply scripts_flow|apply flows_app; [exact Fa|exact F]]| |].
  - intros r. unfold content_step. rewrite str_eqb_refl. unfold on_root. rewrite R. reflexivity.
  - eapply passes_app; [apply scripts_pass; [now apply calm_mute|intros v n a r; exact (C1 v (EEmpty n a) r)]|].
    eapply passes_app; [apply (Pa _ wb_styles put_styles); [apply content_hosts|now destruct w0]|].
    apply passes_sub; [now apply calm_mute|reflexivity|exact I|]. intros rest.
    change (content_step ign ?v (EStart t_body []) ?r) with (read_office_body ign v r). apply B. destruct w0; exact E0.
Qed.
(** Reading the body only: nothing else must be called office:body. *)
Lemma count_body_coalesce l : forall acc, filter is_body (coalesce_from acc l) = filter is_body l.
Proof.
  assert (E : forall acc, filter is_body (emit_text acc) = []) by (intros [|c acc]; reflexivity).
  induction l as [|[] l IH]; intros acc; cbn [coalesce_from]; rewrite ?filter_app, ?E; cbn [app filter is_body]; rewrite ?IH; reflexivity.
Qed.
Lemma passes_over stop {T} (step : T -> event -> list event -> res (T * list event)) w evs : mute step ->
  Forall (fun e => is_stop stop e = false /\ forall r, step w e r = Ok (w, r)) evs -> passes stop step w evs w.
Proof.
  intros M. induction 1 as [|e evs (S & H) _ IH]; [apply passes_nil|]. apply (passes_app _ _ _ [e] w); [|exact IH]. destruct e; [..|]; try (apply passes_event; [exact S|exact I|exact H]). now apply passes_text.
Qed.
Lemma over_only ign w evs : filter is_body evs = [] -> passes None (fods_only_step ign) w evs w.
Proof.
  intros F. destruct calm_steps as (_ & _ & _ & C). destruct (C ign) as (_ & _ & C2). apply passes_over; [now apply calm_mute|]. apply Forall_forall. intros e I. split; [destruct e; reflexivity|]. intros r.
  pose proof (C2 w e r) as Q. destruct e as [n a| | | | |]; try exact Q. cbn [fods_only_step]. destruct (str_eqb n t_body) eqn:E; [|reflexivity].
  assert (J : In (EStart n a) (filter is_body evs)) by (apply filter_In; split; [exact I|exact E]). rewrite F in J. contradiction.
Qed.
(** The flat file. *)
Lemma fods_xml w l ca cs cse ign c0 s bk' : ns_ok l -> meta_ok (wb_meta w) -> sound (wb_config w) -> settings_ok (plain (wb_config w)) -> write_settings (wb_config w) = Ok cse ->
  fst (wb_scripts w) = [] -> hcarries true OContent ca stylebook0 s ->
  Forall sheet_fine (wb_sheets w) -> Forall extra_ok (wb_extra w) -> Forall valid_ok (all_valids w) -> valids_back true (all_valids w) book0 bk' -> write_body w = Ok cs ->
  exists l' ts c', Forall2 (through true ign (wb_defaults w)) (wb_sheets w) l'
  /\ map norm ts = map (fun x => norm (broken true x)) (filter (named_in prelude_tags) (wb_extra w) ++ moved (wb_sheets w) ++ filter (named_in epilogue_tags) (wb_extra w))
  /\ sound c' /\ plain c' = strip (plain (wb_config w))
  /\ (forall text, text = render true (CDtd (lit "UTF-8") :: CElem (lit "office:document") :: attr_calls (root_attrs w l ++ [(lit "office:mimetype", mimetype)])
        ++ ((write_office_meta (wb_meta w) ++ cse ++ scripts_calls w) ++ ca ++ cs) ++ [CEnd (lit "office:document")]) ->
      read_file (fods_step ign) (work0 c0) text
      = Ok (body_into bk' l' ts (put_styles s (put_config c' (put_meta (meta_back (wb_meta w)) (put_version (wb_version w) (with_ns (lit "fods.xml") l (work0 c0)))))))
      /\ (one_body text -> read_file (fods_only_step ign) (work0 c0) text = Ok (body_into bk' l' ts (work0 c0)))).
Proof.
  intros N M S O Ws Sc (ea & Fa & Pa) Fs Fx Fv Vb W. destruct (root_attrs_ok w l N) as (_ & A & X). destruct (read_root_back w l X) as (_ & R). destruct calm_steps as (_ & _ & _ & C). destruct (C ign) as (_ & C1 & C2).
  destruct (body_pass true ign w cs bk' Fs Fx Fv Vb W) as (l' & ts & evs & T & Mx & F & B).
  destruct (meta_flow true (wb_meta w) M) as (em & Fm & Rm). destruct (config_flow _ S O) as (cs' & W' & H). assert (cs' = cse) by congruence. subst cs'. destruct (H true) as (ec & Fc & c' & S' & P' & Rc).
  exists l', ts, c'. split; [exact T|]. split; [exact Mx|]. split; [exact S'|]. split; [exact P'|]. intros text ->. unfold scripts_calls. rewrite Sc.
  assert (Fl : flows true ((write_office_meta (wb_meta w) ++ cse ++ write_office_scripts [] (map snd (snd (wb_scripts w)))) ++ ca ++ cs)
    (((EStart t_meta [] :: em ++ [EEnd t_meta; EText (nl true)]) ++ (EStart t_settings [] :: ec ++ [EEnd t_settings; EText (nl true)])
      ++ ([EEmpty t_scripts []; EText (nl true)] ++ flat_map (listener_events true) (map snd (snd (wb_scripts w))))) ++ ea ++ (EStart t_body [] :: evs ++ [EEnd t_body; EText (nl true)]))).
  { apply flows_app; [apply flows_app; [exact Fm|apply flows_app; [exact Fc|apply scripts_flow]]|apply flows_app; [exact Fa|exact F]]. }
  split.
  - eapply (file_read true (fods_step ign) _ _ _ _ (work0 c0) (put_version (wb_version w) (with_ns (lit "fods.xml") l (work0 c0)))); [exact C1|name_lit|exact A|exact Fl| |].
    + intros r. unfold fods_step. rewrite str_eqb_refl. unfold on_root. rewrite R. reflexivity.
    + eapply passes_app; [eapply passes_app; [|eapply passes_app; [|apply scripts_pass; [now apply calm_mute|intros v n a r; exact (C1 v (EEmpty n a) r)]]]|eapply passes_app].
      * apply passes_sub; [now apply calm_mute|reflexivity|exact I|]. intros rest. change (fods_step ign ?v (EStart t_meta []) ?r) with (let* (m, r') := meta_loop (MInside (wb_meta v)) r in Ok (put_meta m v, r')).
        change (wb_meta (put_version (wb_version w) (with_ns (lit "fods.xml") l (work0 c0)))) with meta0. rewrite Rm. reflexivity.
      * apply passes_sub; [now apply calm_mute|reflexivity|exact I|]. intros rest.
        change (fods_step ign ?v (EStart t_settings []) ?r) with (let* (c, r') := config_loop (CInside None None [CFrame None None cm_new 0]) r in Ok (match c with Some c => put_config c v | None => v end, r')).
        rewrite Rc. reflexivity.
      * apply (Pa _ wb_styles put_styles); [apply content_hosts|reflexivity].
      * apply passes_sub; [now apply calm_mute|reflexivity|exact I|]. intros rest. change (fods_step ign ?v (EStart t_body []) ?r) with (read_office_body ign v r). apply B. reflexivity.
  - unfold one_body. intros One. destruct (flows_doc true (lit "UTF-8") (lit "office:document") (attr_calls (root_attrs w l ++ [(lit "office:mimetype", mimetype)])) _ _ doc_utf8 ltac:(name_lit) (attr_calls_good _ A) Fl) as (head & txt & Rd).
    apply One in Rd. clear One. unfold coalesce in Rd. rewrite count_body_coalesce in Rd. rewrite attrs_of_calls in Rd. revert Rd Fl.
    match goal with |- context [flows true _ (?x ++ ea ++ _)] => generalize x end. intros pe Rd Fl.
    cbn [filter is_body] in Rd. replace (str_eqb (lit "office:document") (lit "office:body")) with false in Rd by reflexivity.
    rewrite <- app_assoc, filter_app, <- app_assoc, filter_app, !app_length in Rd. cbn [app filter is_body] in Rd. change (str_eqb t_body (lit "office:body")) with true in Rd. cbn [length] in Rd.
    eapply (file_read true (fods_only_step ign) _ _ _ _ (work0 c0) (work0 c0)); [exact C2|name_lit|exact A|exact Fl|reflexivity|].
    eapply passes_app; [apply over_only, length_zero_iff_nil; lia|eapply passes_app; [apply over_only, length_zero_iff_nil; lia|]].
    apply passes_sub; [now apply calm_mute|reflexivity|exact I|]. intros rest. change (fods_only_step ign ?v (EStart t_body []) ?r) with (read_office_body ign v r). apply B. reflexivity.
Qed.
