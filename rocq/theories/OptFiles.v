(** The options of reading: leaving out everything but the content. *)
From Verif Require Import Base Lib NumModel XmlModel CellModel CellIoModel HeaderModel TableModel CloneModel BookModel ScriptModel ValidModel StyleModel MetaModel ConfigModel WorkModel TermModel TermProofs.

(** ** Two readings of the same events *)

Definition level {S} (eqv : S -> S -> Prop) (step : S -> event -> list event -> res (S * list event)) : Prop :=
  forall s s' e r x y, eqv s s' -> step s e r = Ok x -> step s' e r = Ok y -> eqv (fst x) (fst y) /\ snd x = snd y.
Lemma reading_level {S} (eqv : S -> S -> Prop) stop (step : S -> event -> list event -> res (S * list event)) : level eqv step ->
  forall n s s' evs x y, eqv s s' -> reading n stop step s evs = Ok x -> reading n stop step s' evs = Ok y ->
  eqv (snd (fst x)) (snd (fst y)) /\ fst (fst x) = fst (fst y) /\ snd x = snd y.
Proof.
  intros L. induction n as [|n IH]; intros s s' evs x y E H H'; destruct evs as [|e evs]; cbn [reading] in *; try discriminate;
    try (injection H as <-; injection H' as <-; auto).
  destruct (match e, stop with EEnd t, Some q => str_eqb t q | _, _ => false end); [injection H as <-; injection H' as <-; auto|].
  apply bind_ok in H as ((a & ra) & H1 & H). apply bind_ok in H' as ((b & rb) & H1' & H').
  destruct (L _ _ _ _ _ _ E H1 H1') as (E' & Er). cbn [fst snd] in *. subst rb. eapply IH; eauto.
Qed.
Definition any {S} (_ _ : S) : Prop := True.
Ltac lv := repeat match goal with
  | H : (let* _ := _ in _) = Ok _ |- _ => apply bind_ok in H as (? & ? & H)
  | H : (let (_, _) := ?p in _) = Ok _ |- _ => destruct p
  | H : Ok _ = Ok _ |- _ => injection H as <-
  end; try (split; [exact I|reflexivity]).

Lemma font_level : level any font_step.
Proof. intros s s' e r x y _ H H'. unfold font_step in *. destruct (on_tag e) as [((n & a) & b)|]; [|lv]. destruct (str_eqb n t_font); [|lv]. destruct (copy_style_attr a). lv. Qed.
Lemma style_rest f o u tag a b k k' evs x y : read_style f o u tag a b k evs = Ok x -> read_style f o u tag a b k' evs = Ok y -> snd x = snd y.
Proof.
  unfold read_style. destruct (copy_style_attr a) as [nm at']. destruct b; intros H H'.
  - lv. reflexivity.
  - destruct (reading _ _ _ _ _) as [[p r]| |]; cbn [bind] in *; try discriminate. destruct (fst p); lv; reflexivity.
Qed.
Lemma style_style_rest todo : forall o u tag a b k k' evs x y, read_style_style todo o u tag a b k evs = Ok x -> read_style_style todo o u tag a b k' evs = Ok y -> snd x = snd y.
Proof.
  induction todo as [|(q & v) todo IH]; intros o u tag a b k k' evs x y H H'; cbn [read_style_style] in *; [lv; reflexivity|].
  destruct (str_eqb q k_family); [|eapply IH; eauto]. destruct (family_of (raw v)); [|discriminate].
  apply bind_ok in H as ((k1 & r1) & E & H). apply bind_ok in H' as ((k2 & r2) & E' & H'). pose proof (style_rest _ _ _ _ _ _ _ _ _ _ _ E E') as X. cbn [snd] in X. subst r2. eapply IH; eauto.
Qed.
Lemma format_rest f o u tag a k k' evs x y : read_format f o u tag a k evs = Ok x -> read_format f o u tag a k' evs = Ok y -> snd x = snd y.
Proof.
  unfold read_format. destruct (copy_style_attr a) as [nm at']. intros H H'. destruct (reading _ _ _ _ _) as [[p r]| |]; cbn [bind] in *; try discriminate. lv. reflexivity.
Qed.
Lemma page_rest a k k' evs x y : read_page a k evs = Ok x -> read_page a k' evs = Ok y -> snd x = snd y.
Proof.
  unfold read_page. destruct (fold_left page_attr a _) as [nm p0]. intros H H'. destruct (reading _ _ _ _ _) as [[p r]| |]; cbn [bind] in *; try discriminate. lv. reflexivity.
Qed.
Lemma master_rest a k k' evs x y : read_master a k evs = Ok x -> read_master a k' evs = Ok y -> snd x = snd y.
Proof.
  unfold read_master. destruct (fold_left master_attr a _) as [nm p0]. intros H H'. destruct (reading _ _ _ _ _) as [[p r]| |]; cbn [bind] in *; try discriminate. lv. reflexivity.
Qed.
Lemma styles_level o : level any (styles_step o).
Proof.
  intros s s' e r x y _ H H'. split; [exact I|]. unfold styles_step in *. destruct (on_tag e) as [((n & a) & b)|]; [|lv; reflexivity].
  destruct (str_eqb n t_style); [eapply style_style_rest; eauto|]. destruct (str_eqb n t_default); [eapply style_style_rest; eauto|].
  destruct (format_of n); [eapply format_rest; eauto|lv; reflexivity].
Qed.
Lemma automatic_level o : level any (automatic_step o).
Proof.
  intros s s' e r x y _ H H'. split; [exact I|]. unfold automatic_step in *. destruct (on_tag e) as [((n & a) & b)|]; [|lv; reflexivity].
  destruct (str_eqb n t_style); [eapply style_style_rest; eauto|]. destruct (str_eqb n t_page); [eapply page_rest; eauto|].
  destruct (format_of n); [eapply format_rest; eauto|lv; reflexivity].
Qed.
Lemma masters_level : level any masters_step.
Proof.
  intros s s' e r x y _ H H'. split; [exact I|]. unfold masters_step in *. destruct (on_tag e) as [((n & a) & b)|]; [|lv; reflexivity].
  destruct (str_eqb n t_master); [eapply master_rest; eauto|lv; reflexivity].
Qed.
Lemma doc_rest o k k' e r x y : doc_step o k e r = Ok x -> doc_step o k' e r = Ok y -> snd x = snd y.
Proof.
  intros H H'. unfold doc_step in *. destruct e; try (lv; reflexivity).
  assert (G : forall stop (step : stylebook -> event -> list event -> res (stylebook * list event)), level any step ->
    (let* (p, r') := reading (length r) stop step k r in Ok (snd p, r')) = Ok x -> (let* (p, r') := reading (length r) stop step k' r in Ok (snd p, r')) = Ok y -> snd x = snd y).
  { intros stop step L A B. apply bind_ok in A as ((p & r1) & A & A'). apply bind_ok in B as ((q & r2) & B & B').
    destruct (reading_level any stop step L _ _ _ _ _ _ I A B) as (_ & _ & X). lv. exact X. }
  destruct (str_eqb n t_fonts).
  { unfold read_fonts in *. apply bind_ok in H as ((p & r1) & A & A'). apply bind_ok in H' as ((q & r2) & B & B').
    destruct (reading_level any (Some t_fonts) font_step font_level _ _ _ _ _ _ I A B) as (_ & _ & X). lv. exact X. }
  destruct (str_eqb n t_office_styles); [eapply G; eauto using styles_level|]. destruct (str_eqb n t_automatic); [eapply G; eauto using automatic_level|].
  destruct (str_eqb n t_masters); [eapply G; eauto using masters_level|]. lv. reflexivity.
Qed.

(** ** The parts of the content *)

Definition body_eq (w w' : workbook) : Prop := wb_valids w = wb_valids w' /\ wb_sheets w = wb_sheets w' /\ wb_extra w = wb_extra w'.
Lemma body_eq_refl w : body_eq w w. Proof. repeat split. Qed.
Lemma body_eq_trans a b c : body_eq a b -> body_eq b c -> body_eq a c. Proof. intros (? & ? & ?) (? & ? & ?). repeat split; congruence. Qed.
Lemma body_eq_sym a b : body_eq a b -> body_eq b a. Proof. intros (? & ? & ?). repeat split; congruence. Qed.

(** A step of the body on two workbooks that are alike: both succeed and leave the same. *)
Lemma body_step_eq ign w w' e r x q : body_eq w w' -> body_step ign w e r = Ok (x, q) ->
  exists x', body_step ign w' e r = Ok (x', q) /\ body_eq x x'
    /\ (wb_scripts x = wb_scripts w /\ wb_version x = wb_version w) /\ (wb_scripts x' = wb_scripts w' /\ wb_version x' = wb_version w').
Proof.
  destruct w as [v0 n0 m0 c0 s0 d0 st0 va0 sh0 ex0], w' as [v1 n1 m1 c1 s1 d1 st1 va1 sh1 ex1]. intros (E1 & E2 & E3). cbn [wb_valids wb_sheets wb_extra] in *. subst va1 sh1 ex1.
  unfold body_step. destruct (on_tag e) as [((n & a) & b)|]; [|intros H; injection H as <- <-; eexists; split; [reflexivity|]; repeat split].
  cbn [wb_valids wb_sheets wb_extra put_valids put_sheets put_extra].
  destruct (negb b && str_eqb n t_valids).
  { intros H. apply bind_ok in H as ((k & r') & -> & H). injection H as <- <-. cbn [bind]. eexists. split; [reflexivity|]. repeat split. }
  destruct (negb b && str_eqb n t_table).
  { intros H. apply bind_ok in H as ((k & r') & -> & H). injection H as <- <-. cbn [bind]. eexists. split; [reflexivity|]. repeat split. }
  destruct (existsb (str_eqb n) _).
  { intros H. apply bind_ok in H as ((k & r') & -> & H). injection H as <- <-. cbn [bind]. eexists. split; [reflexivity|]. repeat split. }
  intros H. injection H as <- <-. eexists. split; [reflexivity|]. repeat split.
Qed.
Lemma body_reading_eq ign n : forall w w' evs x q, body_eq w w' -> reading n (Some t_body) (body_step ign) w evs = Ok (x, q) ->
  exists x', reading n (Some t_body) (body_step ign) w' evs = Ok (x', q) /\ body_eq (snd x) (snd x')
    /\ (wb_scripts (snd x) = wb_scripts w /\ wb_version (snd x) = wb_version w) /\ (wb_scripts (snd x') = wb_scripts w' /\ wb_version (snd x') = wb_version w').
Proof.
  induction n as [|n IH]; intros w w' evs x q E H; destruct evs as [|e evs]; cbn [reading] in *; try discriminate;
    try (injection H as <- <-; eexists; split; [reflexivity|]; repeat split; apply E).
  destruct (match e, Some t_body with EEnd t, Some q => str_eqb t q | _, _ => false end); [injection H as <- <-; eexists; split; [reflexivity|]; repeat split; apply E|].
  apply bind_ok in H as ((w1 & r1) & H1 & H). destruct (body_step_eq _ _ _ _ _ _ _ E H1) as (w2 & H2 & E' & (A1 & A2) & (B1 & B2)). rewrite H2. cbn [bind].
  destruct (IH _ _ _ _ _ E' H) as (x' & H3 & E'' & (C1 & C2) & (D1 & D2)). exists x'. split; [exact H3|]. split; [exact E''|]. repeat split; congruence.
Qed.
Lemma body_eq_read ign w w' evs x q : body_eq w w' -> read_office_body ign w evs = Ok (x, q) ->
  exists x', read_office_body ign w' evs = Ok (x', q) /\ body_eq x x'
    /\ (wb_scripts x = wb_scripts w /\ wb_version x = wb_version w) /\ (wb_scripts x' = wb_scripts w' /\ wb_version x' = wb_version w').
Proof.
  unfold read_office_body. intros E H. apply bind_ok in H as ((p & r) & H & H'). injection H' as <- <-. destruct (body_reading_eq ign _ _ _ _ _ _ E H) as (p' & H2 & A).
  rewrite H2. cbn [bind]. eexists. split; [reflexivity|exact A].
Qed.

(** ** content.xml *)

Definition content_eq (w w' : workbook) : Prop := body_eq w w' /\ wb_scripts w = wb_scripts w' /\ wb_version w = wb_version w'.
Lemma root_eq file b w w' a x y : content_eq w w' -> on_root file b w a = Ok x -> on_root file b w' a = Ok y -> content_eq x y.
Proof.
  destruct w as [v0 n0 m0 c0 s0 d0 st0 va0 sh0 ex0], w' as [v1 n1 m1 c1 s1 d1 st1 va1 sh1 ex1]. intros ((E1 & E2 & E3) & E4 & E5).
  cbn [wb_valids wb_sheets wb_extra wb_scripts wb_version] in *. subst va1 sh1 ex1 s1 v1. unfold on_root.
  destruct (read_root a) as [[v m]| |]; cbn [bind]; try discriminate. intros H H'. injection H as <-. injection H' as <-. destruct v; [destruct b|]; repeat split.
Qed.
Lemma content_level ign : level content_eq (content_step ign).
Proof.
  intros w w' e r x y E H H'. unfold content_step in *. destruct e; try (lv; split; [exact E|reflexivity]).
  destruct (str_eqb n (lit "office:document-content")).
  { apply bind_ok in H as (w1 & A & H). apply bind_ok in H' as (w2 & B & H'). injection H as <-. injection H' as <-. split; [|reflexivity]. eapply root_eq; eauto. }
  destruct (str_eqb n t_scripts).
  { replace (wb_scripts w') with (wb_scripts w) in H' by apply E. destruct (reading _ _ _ _ _) as [[p r']| |]; cbn [bind] in *; try discriminate.
    injection H as <-. injection H' as <-. split; [|reflexivity]. destruct w, w'. destruct E as ((E1 & E2 & E3) & E4 & E5). cbn in *. subst. repeat split. }
  destruct (existsb (str_eqb n) style_sections).
  { apply bind_ok in H as ((b1 & r1) & A & H). apply bind_ok in H' as ((b2 & r2) & B & H'). injection H as <-. injection H' as <-. split; [|exact (doc_rest _ _ _ _ _ _ _ A B)].
    destruct w, w'. destruct E as ((E1 & E2 & E3) & E4 & E5). cbn in *. subst. repeat split. }
  destruct (str_eqb n t_body); [|lv; split; [exact E|reflexivity]].
  destruct x as [x q]. destruct E as (E & E4 & E5). destruct (body_eq_read ign w w' r x q E H) as (x' & H2 & A & (B1 & B2) & (C1 & C2)). rewrite H2 in H'. injection H' as <-. split; [|reflexivity].
  split; [exact A|]. split; cbn [fst]; congruence.
Qed.
Lemma content_read ign w w' t x y : content_eq w w' -> read_file (content_step ign) w t = Ok x -> read_file (content_step ign) w' t = Ok y -> content_eq x y.
Proof.
  unfold read_file. intros E H H'. destruct (read_events t) as [evs| |]; cbn [bind] in *; try discriminate.
  apply bind_ok in H as ((p & r) & A & H). apply bind_ok in H' as ((p' & r') & B & H'). injection H as <-. injection H' as <-.
  exact (proj1 (reading_level content_eq None (content_step ign) (content_level ign) _ _ _ _ _ _ E A B)).
Qed.
Lemma calc_eq rep w w' x y : content_eq w w' -> calc_book rep w = Ok x -> calc_book rep w' = Ok y -> content_eq x y.
Proof.
  unfold calc_book. intros ((E1 & E2 & E3) & E4 & E5) H H'. rewrite <- E2 in H'. destruct (calc_sheets rep (wb_sheets w)) as [l| |]; cbn [bind] in *; try discriminate. injection H as <-. injection H' as <-.
  destruct w, w'. cbn in *. subst. repeat split.
Qed.
(** The files before content.xml do not touch it. *)
Lemma files_kept step : (forall w e r x q, step w e r = Ok (x, q) -> content_eq w x) -> forall w t x, read_file step w t = Ok x -> content_eq w x.
Proof.
  intros K w t x H. unfold read_file in H. destruct (read_events t) as [evs| |]; cbn [bind] in H; try discriminate. apply bind_ok in H as ((p & r) & A & H). injection H as <-.
  revert w evs p r A. generalize (length (A := event)). intros len w evs p r. generalize (len evs). intros n. revert w evs p r.
  assert (Tr : forall a b c, content_eq a b -> content_eq b c -> content_eq a c) by (intros a b c (X & ? & ?) (Y & ? & ?); split; [eapply body_eq_trans; eauto|split; congruence]).
  induction n as [|n IH]; intros w evs p r H; destruct evs as [|e evs]; cbn [reading] in H; try discriminate; try (injection H as <- <-; repeat split).
  match type of H with (if ?b then _ else _) = _ => destruct b end; [injection H as <- <-; repeat split|]. apply bind_ok in H as ((w1 & r1) & H1 & H). eapply Tr; [eapply K, H1|eapply IH, H].
Qed.
Lemma root_kept file w a x : on_root file false w a = Ok x -> content_eq w x.
Proof. unfold on_root. destruct (read_root a) as [[v m]| |]; cbn [bind]; try discriminate. intros H. injection H as <-. destruct w, v; repeat split. Qed.
Lemma meta_kept w e r x q : meta_file_step w e r = Ok (x, q) -> content_eq w x.
Proof.
  unfold meta_file_step. destruct e; try (intros H; injection H as <- <-; repeat split). destruct (str_eqb n _); [intros H; apply bind_ok in H as (w' & A & H); injection H as <- <-; eapply root_kept, A|].
  destruct (str_eqb n t_meta); [|intros H; injection H as <- <-; repeat split]. intros H. apply bind_ok in H as ((m & r') & _ & H). injection H as <- <-. destruct w; repeat split.
Qed.
Lemma settings_kept w e r x q : settings_file_step w e r = Ok (x, q) -> content_eq w x.
Proof.
  unfold settings_file_step. destruct e; try (intros H; injection H as <- <-; repeat split). destruct (str_eqb n _); [intros H; apply bind_ok in H as (w' & A & H); injection H as <- <-; eapply root_kept, A|].
  destruct (str_eqb n t_settings); [|intros H; injection H as <- <-; repeat split]. intros H. apply bind_ok in H as ((m & r') & _ & H). injection H as <- <-. destruct w, m; repeat split.
Qed.
Lemma styles_kept w e r x q : styles_file_step w e r = Ok (x, q) -> content_eq w x.
Proof.
  unfold styles_file_step. destruct e; try (intros H; injection H as <- <-; repeat split). destruct (str_eqb n _); [intros H; apply bind_ok in H as (w' & A & H); injection H as <- <-; eapply root_kept, A|].
  destruct (existsb _ _); [|intros H; injection H as <- <-; repeat split]. intros H. apply bind_ok in H as ((m & r') & _ & H). injection H as <- <-. destruct w; repeat split.
Qed.

(** ** The flat file *)

Definition is_body (e : event) : bool := match e with EStart n _ => str_eqb n t_body | _ => false end.
Definition bodies (evs : list event) : nat := length (filter is_body evs).
Lemma bodies_app a b : bodies (a ++ b) = (bodies a + bodies b)%nat.
Proof. unfold bodies. now rewrite filter_app, app_length. Qed.
Lemma only_pass ign w e r : is_body e = false -> fods_only_step ign w e r = Ok (w, r).
Proof. unfold fods_only_step. destruct e; try reflexivity. cbn [is_body]. now intros ->. Qed.
Lemma only_skip ign w p : bodies p = 0%nat -> forall n r, (length (p ++ r) <= n)%nat ->
  exists m, (length r <= m)%nat /\ reading n None (fods_only_step ign) w (p ++ r) = reading m None (fods_only_step ign) w r.
Proof.
  induction p as [|e p IH]; intros B n r L; [exists n; auto|]. cbn [app length] in L. destruct n as [|n]; [lia|].
  unfold bodies in B. cbn [filter] in B. destruct (is_body e) eqn:Q; [discriminate|]. cbn [app reading].
  destruct (IH B n r) as (m & Lm & E); [lia|]. exists m. split; [exact Lm|]. destruct e; rewrite (only_pass _ _ _ _ Q); exact E.
Qed.
Lemma only_end ign w p n : bodies p = 0%nat -> (length p <= n)%nat -> reading n None (fods_only_step ign) w p = Ok (false, w, []).
Proof.
  intros B L. destruct (only_skip ign w p B n []) as (m & _ & E); [now rewrite app_nil_r|]. rewrite app_nil_r in E. rewrite E. now destruct m.
Qed.
(** One event of the flat file: the body, or something that leaves the body alone. *)
Lemma fods_kept ign w e r x q : is_body e = false -> fods_step ign w e r = Ok (x, q) -> body_eq w x /\ sfx q r.
Proof.
  intros B H. split; [|eapply fods_shrinks, H]. unfold fods_step in H. destruct e; try (injection H as <- <-; repeat split). cbn [is_body] in B. rewrite B in H.
  destruct (str_eqb n (lit "office:document")).
  { apply bind_ok in H as (w' & A & H). injection H as <- <-. unfold on_root in A. destruct (read_root _) as [[v m]| |]; cbn [bind] in A; try discriminate. injection A as <-. destruct w, v; repeat split. }
  destruct (str_eqb n t_meta); [apply bind_ok in H as ((m & r') & _ & H); injection H as <- <-; destruct w; repeat split|].
  destruct (str_eqb n t_settings); [apply bind_ok in H as ((m & r') & _ & H); injection H as <- <-; destruct w, m; repeat split|].
  destruct (str_eqb n t_scripts); [apply bind_ok in H as ((m & r') & _ & H); injection H as <- <-; destruct w; repeat split|].
  destruct (existsb _ _); [apply bind_ok in H as ((m & r') & _ & H); injection H as <- <-; destruct w; repeat split|].
  injection H as <- <-. repeat split.
Qed.
Lemma fods_bodiless ign n : forall w evs x, bodies evs = 0%nat -> reading n None (fods_step ign) w evs = Ok x -> body_eq w (snd (fst x)).
Proof.
  induction n as [|n IH]; intros w evs x B H; destruct evs as [|e evs]; cbn [reading] in H; try discriminate; try (injection H as <-; repeat split).
  replace (match e with EEnd _ | _ => false end) with false in H by (destruct e; reflexivity).
  apply bind_ok in H as ((w1 & r1) & H1 & H). unfold bodies in B. cbn [filter] in B. destruct (is_body e) eqn:Q; [discriminate|].
  destruct (fods_kept ign w e evs w1 r1 Q H1) as (E & (p & ->)). fold (bodies (p ++ r1)) in B. rewrite bodies_app in B. eapply body_eq_trans; [exact E|]. eapply IH; [|exact H]. lia.
Qed.
Lemma fods_only_reads ign n : forall w w' evs x m, body_eq w w' -> (bodies evs <= 1)%nat -> (length evs <= m)%nat -> reading n None (fods_step ign) w evs = Ok x -> wb_sheets (snd (fst x)) <> wb_sheets w ->
  exists y, reading m None (fods_only_step ign) w' evs = Ok y /\ body_eq (snd (fst x)) (snd (fst y)).
Proof.
  induction n as [|n IH]; intros w w' evs x m E B L H N; destruct evs as [|e evs]; cbn [reading] in H; try discriminate; try (injection H as <-; cbn in N; congruence).
  replace (match e with EEnd _ | _ => false end) with false in H by (destruct e; reflexivity).
  apply bind_ok in H as ((w1 & r1) & H1 & H). destruct (is_body e) eqn:Q.
  - destruct e as [t a| | | | |]; try discriminate. cbn [is_body] in Q. apply str_eqb_eq in Q. subst t.
    destruct m as [|m]; [cbn in L; lia|]. cbn [length] in L. cbn [reading]. unfold fods_only_step at 1. rewrite str_eqb_refl.
    unfold fods_step in H1. change (str_eqb t_body (lit "office:document")) with false in H1. change (str_eqb t_body t_meta) with false in H1. change (str_eqb t_body t_settings) with false in H1.
    change (str_eqb t_body t_scripts) with false in H1. change (existsb (str_eqb t_body) style_sections) with false in H1. rewrite str_eqb_refl in H1.
    pose proof (body_sfx _ _ _ _ _ H1) as (p & Ep). destruct (body_eq_read ign w w' evs w1 r1 E H1) as (w2 & H2 & E2 & _). rewrite H2. cbn [bind].
    assert (B1 : bodies r1 = 0%nat). { unfold bodies in B. cbn [filter is_body] in B. rewrite str_eqb_refl in B. cbn [length] in B. fold (bodies evs) in B. rewrite Ep, bodies_app in B. lia. }
    rewrite (only_end ign w2 r1 m B1) by (rewrite Ep, app_length in L; lia). eexists. split; [reflexivity|]. cbn [fst snd]. eapply body_eq_trans; [|exact E2]. apply body_eq_sym. eapply fods_bodiless; eauto.
  - destruct (fods_kept ign w e evs w1 r1 Q H1) as (E1 & (p & Ep)).
    assert (B1 : bodies (e :: p) = 0%nat /\ (bodies r1 <= 1)%nat).
    { unfold bodies in B |- *. cbn [filter] in B |- *. rewrite Q in B |- *. fold (bodies evs) in B. fold (bodies p). fold (bodies r1). rewrite Ep, bodies_app in B. split; [|lia].
      destruct (bodies p) as [|k] eqn:K; [reflexivity|]. assert (Z : bodies r1 = 0%nat) by lia. pose proof (fods_bodiless ign n w1 r1 x Z H) as (_ & X & _). destruct E1 as (_ & Y & _). congruence. }
    destruct B1 as (B1 & B2). rewrite Ep in L |- *. destruct (only_skip ign w' (e :: p) B1 m r1) as (m' & Lm & Sk); [exact L|]. cbn [app] in Sk. rewrite Sk.
    apply (IH w1 w' r1 x m'); auto; [|destruct E1 as (_ & Y & _); congruence]. eapply body_eq_trans; [apply body_eq_sym, E1|exact E].
Qed.
