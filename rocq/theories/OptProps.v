(** C68: the options of reading. *)
From Coq Require Import Sorted.
From Verif Require Import Base Lib OMap OMapProofs XmlModel XmlProofs RefsModel CellModel HeaderModel HeaderSpec HeaderProofs SplitModel NumModel EnumModel CellIoModel CellIoSpec TableModel CloneModel CloneSpec CloneProofs
  BookModel ScriptModel ValidModel StyleModel MetaModel ConfigModel WorkModel TermModel TermProofs OptProofs OptFiles.
From Verif Require CloneProps WorkProps.

(** ** The content only *)

(** A package: sheets, validations, other elements, scripts and version are those of the whole file. *)
Theorem C68_content : forall ign rep c0 f w w', WorkModel.read_ods ign rep c0 f = Ok w -> read_ods_only ign rep c0 f = Ok w' ->
  wb_sheets w' = wb_sheets w /\ wb_valids w' = wb_valids w /\ wb_extra w' = wb_extra w /\ wb_scripts w' = wb_scripts w /\ wb_version w' = wb_version w.
Proof.
  intros ign rep c0 f w w' H H'. unfold WorkModel.read_ods in H. apply bind_ok in H as (w1 & A1 & H). apply bind_ok in H as (w2 & A2 & H). apply bind_ok in H as (w3 & A3 & H). apply bind_ok in H as (w4 & A4 & H).
  unfold read_ods_only in H'. apply bind_ok in H' as (x & B & H').
  apply (files_kept _ meta_kept) in A1. apply (files_kept _ settings_kept) in A2. apply (files_kept _ styles_kept) in A3.
  assert (E : content_eq w3 (work0 c0)).
  { destruct A1 as ((? & ? & ?) & ? & ?), A2 as ((? & ? & ?) & ? & ?), A3 as ((? & ? & ?) & ? & ?). repeat split; congruence. }
  pose proof (content_read ign w3 (work0 c0) (fl_content f) w4 x E A4 B) as E'. destruct (calc_eq rep w4 x w w' E' H H') as ((X1 & X2 & X3) & X4 & X5). repeat split; congruence.
Qed.

(** A flat file with one body: sheets, validations and other elements are those of the whole file. Nothing else is read. *)
Definition one_body (evs : list event) : Prop := forall p a q, evs = p ++ EStart t_body a :: q -> forall b, ~ In (EStart t_body b) q.
Lemma one_body_count evs : one_body evs -> (bodies evs <= 1)%nat.
Proof.
  intros H. destruct (bodies evs) as [|[|n]] eqn:B; try lia. exfalso. revert H B. induction evs as [|e evs IH]; intros H B; [discriminate|]. unfold bodies in B. cbn [filter] in B. destruct (is_body e) eqn:Q.
  - cbn [length] in B. injection B as B. destruct e as [t a| | | | |]; try discriminate. apply str_eqb_eq in Q. subst t.
    destruct (filter is_body evs) as [|x l] eqn:F; [discriminate|]. assert (I : In x evs) by (apply (proj1 (filter_In is_body x evs)); rewrite F; now left).
    assert (J : is_body x = true) by (apply (proj1 (filter_In is_body x evs)); rewrite F; now left).
    destruct x as [t b| | | | |]; try discriminate. apply str_eqb_eq in J. subst t. exact (H [] a evs eq_refl b I).
  - apply IH; [|exact B]. intros p a q -> b. apply (H (e :: p) a q). reflexivity.
Qed.
Theorem C68_flat : forall ign rep c0 text evs w, read_events text = Ok evs -> one_body evs -> WorkModel.read_fods ign rep c0 text = Ok w -> wb_sheets w <> [] ->
  exists w', read_fods_only ign rep c0 text = Ok w' /\ wb_sheets w' = wb_sheets w /\ wb_valids w' = wb_valids w /\ wb_extra w' = wb_extra w.
Proof.
  intros ign rep c0 text evs w E O H N. unfold WorkModel.read_fods, read_fods_only, read_file in *. rewrite E in *. cbn [bind] in *.
  apply bind_ok in H as (w1 & A & H). apply bind_ok in A as ((p & r) & A & A'). injection A' as <-.
  destruct (fods_only_reads ign _ (work0 c0) (work0 c0) evs _ (length evs) (body_eq_refl _) (one_body_count _ O) (le_n _) A) as ((p' & r') & B & (X1 & X2 & X3)).
  { cbn [fst]. intros Q. apply N. cbn [work0 wb_sheets] in Q. unfold calc_book in H. rewrite Q in H. cbn [calc_sheets bind] in H. injection H as <-. now destruct (snd p). }
  cbn [fst] in *. rewrite B. cbn [bind]. unfold calc_book in *. rewrite <- X2. destruct (calc_sheets rep (wb_sheets (snd p))) as [l| |]; cbn [bind] in *; try discriminate. injection H as <-.
  eexists. split; [reflexivity|]. destruct (snd p), (snd p'). cbn in *. subst. repeat split.
Qed.
Theorem C68_flat_rest : forall ign rep c0 text w, read_fods_only ign rep c0 text = Ok w ->
  wb_version w = lit "1.3" /\ wb_ns w = [] /\ wb_meta w = meta0 /\ wb_config w = c0 /\ wb_scripts w = ([], []) /\ wb_styles w = stylebook0.
Proof.
  intros ign rep c0 text w H. unfold read_fods_only, read_file in H. apply bind_ok in H as (w1 & A & H). apply bind_ok in A as (evs & _ & A). apply bind_ok in A as ((p & r) & A & A'). injection A' as <-.
  pose (Q := fun w => wb_version w = lit "1.3" /\ wb_ns w = [] /\ wb_meta w = meta0 /\ wb_config w = c0 /\ wb_scripts w = ([], []) /\ wb_styles w = stylebook0).
  assert (K : forall stop step, (forall w e r x q, Q w -> step w e r = Ok (x, q) -> Q x) -> forall n w evs x, Q w -> reading n stop step w evs = Ok x -> Q (snd (fst x))).
  { intros stop step St. induction n as [|n IH]; intros w0 l x Qw R; destruct l as [|e l]; cbn [reading] in R; try discriminate; try (injection R as <-; exact Qw).
    match type of R with (if ?b then _ else _) = _ => destruct b end; [injection R as <-; exact Qw|]. apply bind_ok in R as ((w2 & r2) & R1 & R). eapply IH; [|exact R]. eapply St; eauto. }
  assert (Bd : forall w e r x q, Q w -> body_step ign w e r = Ok (x, q) -> Q x).
  { intros w0 e r0 x q Qw R. unfold body_step in R. destruct (on_tag e) as [((n & a) & b)|]; [|injection R as <- <-; exact Qw].
    repeat match type of R with
    | (if ?b then _ else _) = _ => destruct b
    | bind ?x _ = _ => apply bind_ok in R as ((? & ?) & _ & R)
    end; injection R as <- <-; destruct w0; exact Qw. }
  assert (X : Q (snd p)).
  { apply (K None (fods_only_step ign)) in A; [exact A| |repeat split]. intros w0 e r0 x q Qw R. unfold fods_only_step in R. destruct e; try (injection R as <- <-; exact Qw).
    destruct (str_eqb n t_body); [|injection R as <- <-; exact Qw]. unfold read_office_body in R. apply bind_ok in R as ((p0 & r1) & R & R'). injection R' as <- <-. apply (K _ _ Bd) in R; [exact R|exact Qw]. }
  unfold calc_book in H. apply bind_ok in H as (l & _ & H). injection H as <-. destruct (snd p). exact X.
Qed.

(** ** Leaving out empty cells *)

Definition empty_cell (c : cell) : Prop := says_nothing (c_style c) (cell_content c).
Lemma empty_ok c : cell_is_empty c = true <-> empty_cell c.
Proof.
  destruct c as [v f s r x]. unfold empty_cell. split; intros H.
  - assert (D : dropped [((0, 0), Cell v f s 2 x)] (0, 0) (Cell v f s 2 x)).
    { split; [cbn; lia|]. split; [exact H|]. intros b d [I|[]]. injection I as <- <-. cbn. lia. }
    apply dropped_spec in D as (_ & D & _). destruct x; exact D.
  - assert (D : left_out [((0, 0), Cell v f s 2 x)] 0 0 (Cell v f s 2 x)).
    { split; [cbn; lia|]. split; [destruct x; exact H|]. intros b d [I|[]]. injection I as <- <-. lia. }
    apply dropped_spec in D as (_ & D & _). exact D.
Qed.
Lemma full_ok c : cell_is_empty c = false <-> ~ empty_cell c.
Proof. rewrite <- empty_ok. destruct (cell_is_empty c); split; intros; congruence. Qed.

(** Everything but cells and row headers is the same; the cells are those that are not empty. At a position there may be a cell that a
    later, empty one has replaced. *)
Definition fewer (s1 s2 : sheet) : Prop := same_table s1 s2
  /\ (forall p c, In (p, c) (tb_cells s2) -> ~ empty_cell c -> In (p, c) (tb_cells s1))
  /\ (forall p c, In (p, c) (tb_cells s1) -> ~ empty_cell c /\ exists c', In (p, c') (tb_cells s2) /\ (c' = c \/ empty_cell c')).
(** The headers of the rows that have a cell. *)
Definition same_headers (s1 s2 : sheet) : Prop :=
  forall r col c h, In ((r, col), c) (tb_cells s1) -> In (r, h) (tb_rows s1) -> h_span h = 1 -> In (r, h) (tb_rows s2).
Lemma rel_fewer s1 s2 : same_table s1 s2 -> cells_rel (tb_cells s1) (tb_cells s2) -> fewer s1 s2.
Proof.
  intros T (S1 & S2 & C1 & C2). split; [exact T|]. split.
  - intros p c I E. apply (get_in pltb pltb_order _ _ _ S1). apply (get_in pltb pltb_order _ _ _ S2) in I. apply C1; [exact I|now apply full_ok].
  - intros p c I. apply (get_in pltb pltb_order _ _ _ S1) in I. apply C2 in I as (E & c' & G & D). split; [now apply full_ok|]. exists c'. split; [now apply (get_in pltb pltb_order _ _ _ S2)|].
    destruct D; [now left|right; now apply empty_ok].
Qed.
Theorem C68_ignored : forall evs s2 r, read_table false evs = Ok (s2, r) -> exists s1, read_table true evs = Ok (s1, r) /\ fewer s1 s2 /\ same_headers s1 s2.
Proof.
  intros evs s2 r H. destruct (read_rel evs s2 r H) as (s1 & E & T & C & S1 & S2 & D). exists s1. split; [exact E|]. split; [now apply rel_fewer|].
  intros q col c h I J Sp. apply (hget_in q h _ (proj1 S2)). apply (D (q, col) c h); [|now apply (hget_in q h _ (proj1 S1))|exact Sp]. apply (get_in pltb pltb_order _ _ _ (proj1 C)), I.
Qed.

(** With repeat counts kept: the cells that are not empty are the same. *)
Lemma repeat_full m r c d : cell_is_empty d = false -> ~ left_out m r c d.
Proof. intros E (_ & X & _). apply full_ok in E. now apply E. Qed.
Lemma calc_ok rep sh t : calculations rep sh = Ok t -> exists cs, dedup_colheader (tb_cols sh) = Ok cs /\ (if rep then Ok (calc_repeat (put_cols cs sh)) else calc_cloned (put_cols cs sh)) = Ok t.
Proof. unfold calculations. intros H. apply bind_ok in H as (cs & E & H). eauto. Qed.
(** After the calculations, with repeat counts kept. *)
Definition fewer_after (s1 s2 : sheet) : Prop := same_table s1 s2
  /\ (forall p c, In (p, c) (tb_cells s2) -> ~ empty_cell c -> In (p, c) (tb_cells s1))
  /\ (forall p c, In (p, c) (tb_cells s1) -> ~ empty_cell c /\ (In (p, c) (tb_cells s2) \/ forall c', In (p, c') (tb_cells s2) -> empty_cell c')).
Definition raw_rel (s1 s2 : sheet) : Prop := same_table s1 s2 /\ cells_rel (tb_cells s1) (tb_cells s2).
Lemma repeat_rel s1 s2 t2 : raw_rel s1 s2 -> calculations true s2 = Ok t2 -> exists t1, calculations true s1 = Ok t1 /\ fewer_after t1 t2.
Proof.
  intros (T & C) H. apply calc_ok in H as (cs & E & H). injection H as <-. unfold calculations. assert (Ec : tb_cols s1 = tb_cols s2) by apply T. rewrite Ec, E. cbn [bind]. eexists. split; [reflexivity|].
  destruct (rel_fewer s1 s2 T C) as (_ & F1 & F2). destruct C as (S1 & S2 & _).
  assert (R1 : forall p c, In (p, c) (tb_cells (calc_repeat (put_cols cs s1))) <-> In (p, c) (tb_cells s1)).
  { intros p c. rewrite (CloneProps.C41_repeats (put_cols cs s1) S1). change (tb_cells (put_cols cs s1)) with (tb_cells s1). split; [tauto|]. intros I. split; [exact I|]. apply F2 in I as (I & _). now intros (_ & X & _). }
  assert (R2 : forall p c, In (p, c) (tb_cells (calc_repeat (put_cols cs s2))) <-> In (p, c) (tb_cells s2) /\ ~ left_out (tb_cells s2) (fst p) (snd p) c).
  { intros p c. rewrite (CloneProps.C41_repeats (put_cols cs s2) S2). reflexivity. }
  split; [unfold same_table in *; cbn [calc_repeat put_cells put_rows put_cols tb_name tb_style tb_ranges tb_print tb_display tb_extra tb_cols tb_gcols tb_grows tb_hcols tb_hrows]; tauto|]. split.
  - intros p c I N. apply R2 in I as (I & _). apply R1. now apply F1.
  - intros p c I. apply R1, F2 in I as (N & c' & I & [->|Q]); (split; [exact N|]).
    + left. apply R2. split; [exact I|]. now intros (_ & X & _).
    + right. intros c2 J. apply R2 in J as (J & _). apply (get_in pltb pltb_order _ _ _ S2) in I, J. congruence.
Qed.

(** A simulation of the loops. *)
Lemma reading_sim {S} (R : S -> S -> Prop) stop (st1 st2 : S -> event -> list event -> res (S * list event)) :
  (forall s1 s2 e r x2 q, R s1 s2 -> st2 s2 e r = Ok (x2, q) -> exists x1, st1 s1 e r = Ok (x1, q) /\ R x1 x2) ->
  forall n s1 s2 evs x2 q, R s1 s2 -> reading n stop st2 s2 evs = Ok (x2, q) -> exists x1, reading n stop st1 s1 evs = Ok (fst x2, x1, q) /\ R x1 (snd x2).
Proof.
  intros Sim. induction n as [|n IH]; intros s1 s2 evs x2 q Rs H; destruct evs as [|e evs]; cbn [reading] in *; try discriminate; try (injection H as <- <-; eexists; split; [reflexivity|exact Rs]).
  destruct (match e, stop with EEnd t, Some q => str_eqb t q | _, _ => false end); [injection H as <- <-; eexists; split; [reflexivity|exact Rs]|].
  apply bind_ok in H as ((y2 & r2) & H1 & H). destruct (Sim _ _ _ _ _ _ Rs H1) as (y1 & E & Ry). rewrite E. cbn [bind]. eapply IH; eauto.
Qed.
Definition book_rel (w1 w2 : workbook) : Prop := put_sheets [] w1 = put_sheets [] w2 /\ Forall2 raw_rel (wb_sheets w1) (wb_sheets w2).
Ltac same_book := match goal with H : book_rel ?w1 ?w2 |- _ => destruct w1 as [v1 n1 m1 c1 s1 d1 st1 va1 sh1 ex1], w2 as [v2 n2 m2 c2 s2 d2 st2 va2 sh2 ex2]; destruct H as (Eq & Fw);
  cbn [put_sheets wb_sheets] in Eq, Fw; injection Eq as -> -> -> -> -> -> -> -> -> end.
Lemma body_sim w1 w2 e r x2 q : book_rel w1 w2 -> body_step false w2 e r = Ok (x2, q) -> exists x1, body_step true w1 e r = Ok (x1, q) /\ book_rel x1 x2.
Proof.
  intros Rw H. same_book. unfold body_step in *. destruct (on_tag e) as [((n & a) & b)|]; [|injection H as <- <-; eexists; split; [reflexivity|now split]].
  cbn [wb_valids wb_sheets wb_extra put_valids put_sheets put_extra] in *.
  destruct (negb b && str_eqb n t_valids).
  { apply bind_ok in H as ((k & r') & -> & H). injection H as <- <-. cbn [bind]. eexists. split; [reflexivity|]. now split. }
  destruct (negb b && str_eqb n t_table).
  { apply bind_ok in H as ((k & r') & H1 & H). injection H as <- <-. destruct (read_rel _ _ _ H1) as (k1 & E1 & T & C & _). rewrite E1. cbn [bind]. eexists. split; [reflexivity|]. split; [reflexivity|].
    cbn [wb_sheets]. apply Forall2_app; [exact Fw|]. constructor; [now split|constructor]. }
  destruct (existsb (str_eqb n) _).
  { apply bind_ok in H as ((k & r') & -> & H). injection H as <- <-. cbn [bind]. eexists. split; [reflexivity|]. now split. }
  injection H as <- <-. eexists. split; [reflexivity|now split].
Qed.
Lemma office_sim w1 w2 r x2 q : book_rel w1 w2 -> read_office_body false w2 r = Ok (x2, q) -> exists x1, read_office_body true w1 r = Ok (x1, q) /\ book_rel x1 x2.
Proof.
  unfold read_office_body. intros Rw H. apply bind_ok in H as ((p & r') & H & H'). injection H' as <- <-. destruct (reading_sim book_rel _ _ _ body_sim _ _ _ _ _ _ Rw H) as (x1 & E & Rx). rewrite E. cbn [bind]. eexists. split; [reflexivity|exact Rx].
Qed.
Lemma root_sim file w1 w2 a x2 : book_rel w1 w2 -> on_root file true w2 a = Ok x2 -> exists x1, on_root file true w1 a = Ok x1 /\ book_rel x1 x2.
Proof.
  intros Rw H. same_book. unfold on_root in *. destruct (read_root a) as [[v m]| |]; cbn [bind] in *; try discriminate. injection H as <-. eexists. split; [reflexivity|]. destruct v; now split.
Qed.
Lemma content_sim w1 w2 e r x2 q : book_rel w1 w2 -> content_step false w2 e r = Ok (x2, q) -> exists x1, content_step true w1 e r = Ok (x1, q) /\ book_rel x1 x2.
Proof.
  intros Rw H. unfold content_step in *. destruct e; try (injection H as <- <-; eexists; split; [reflexivity|exact Rw]).
  destruct (str_eqb n (lit "office:document-content")).
  { apply bind_ok in H as (y2 & H1 & H). injection H as <- <-. destruct (root_sim _ _ _ _ _ Rw H1) as (y1 & E & Ry). rewrite E. cbn [bind]. eexists. split; [reflexivity|exact Ry]. }
  destruct (str_eqb n t_scripts).
  { same_book. cbn [wb_scripts put_scripts] in *. apply bind_ok in H as ((p & r') & -> & H). injection H as <- <-. cbn [bind]. eexists. split; [reflexivity|]. now split. }
  destruct (existsb (str_eqb n) style_sections).
  { same_book. cbn [wb_styles WorkModel.put_styles] in *. apply bind_ok in H as ((p & r') & -> & H). injection H as <- <-. cbn [bind]. eexists. split; [reflexivity|]. now split. }
  destruct (str_eqb n t_body); [now apply (office_sim w1 w2)|]. injection H as <- <-; eexists; split; [reflexivity|exact Rw].
Qed.
Lemma fods_sim w1 w2 e r x2 q : book_rel w1 w2 -> fods_step false w2 e r = Ok (x2, q) -> exists x1, fods_step true w1 e r = Ok (x1, q) /\ book_rel x1 x2.
Proof.
  intros Rw H. unfold fods_step in *. destruct e; try (injection H as <- <-; eexists; split; [reflexivity|exact Rw]).
  destruct (str_eqb n (lit "office:document")).
  { apply bind_ok in H as (y2 & H1 & H). injection H as <- <-. destruct (root_sim _ _ _ _ _ Rw H1) as (y1 & E & Ry). rewrite E. cbn [bind]. eexists. split; [reflexivity|exact Ry]. }
  destruct (str_eqb n t_meta).
  { same_book. cbn [wb_meta put_meta] in *. apply bind_ok in H as ((p & r') & -> & H). injection H as <- <-. cbn [bind]. eexists. split; [reflexivity|]. now split. }
  destruct (str_eqb n t_settings).
  { same_book. cbn [put_config] in *. apply bind_ok in H as ((p & r') & -> & H). injection H as <- <-. cbn [bind]. eexists. split; [reflexivity|]. destruct p; now split. }
  destruct (str_eqb n t_scripts).
  { same_book. cbn [wb_scripts put_scripts] in *. apply bind_ok in H as ((p & r') & -> & H). injection H as <- <-. cbn [bind]. eexists. split; [reflexivity|]. now split. }
  destruct (existsb (str_eqb n) style_sections).
  { same_book. cbn [wb_styles WorkModel.put_styles] in *. apply bind_ok in H as ((p & r') & -> & H). injection H as <- <-. cbn [bind]. eexists. split; [reflexivity|]. now split. }
  destruct (str_eqb n t_body); [now apply (office_sim w1 w2)|]. injection H as <- <-; eexists; split; [reflexivity|exact Rw].
Qed.
Lemma file_sim st1 st2 : (forall w1 w2 e r x2 q, book_rel w1 w2 -> st2 w2 e r = Ok (x2, q) -> exists x1, st1 w1 e r = Ok (x1, q) /\ book_rel x1 x2) ->
  forall w1 w2 t x2, book_rel w1 w2 -> read_file st2 w2 t = Ok x2 -> exists x1, read_file st1 w1 t = Ok x1 /\ book_rel x1 x2.
Proof.
  intros Sim w1 w2 t x2 Rw H. unfold read_file in *. apply bind_ok in H as (evs & -> & H). cbn [bind]. apply bind_ok in H as ((p & r) & H & H'). injection H' as <-.
  destruct (reading_sim book_rel None st1 st2 Sim _ _ _ _ _ _ Rw H) as (x1 & E & Rx). rewrite E. cbn [bind]. eexists. split; [reflexivity|exact Rx].
Qed.
Lemma book_rel_refl w : wb_sheets w = [] -> book_rel w w.
Proof. intros E. split; [reflexivity|]. rewrite E. constructor. Qed.
Lemma calc_book_rel w1 w2 x2 : book_rel w1 w2 -> calc_book true w2 = Ok x2 -> exists x1, calc_book true w1 = Ok x1 /\ put_sheets [] x1 = put_sheets [] x2 /\ Forall2 fewer_after (wb_sheets x1) (wb_sheets x2).
Proof.
  intros (E & F) H. unfold calc_book in *. apply bind_ok in H as (l2 & H & H'). injection H' as <-.
  assert (G : exists l1, calc_sheets true (wb_sheets w1) = Ok l1 /\ Forall2 fewer_after l1 l2).
  { clear E. revert l2 H. induction F as [|a b la lb Rab F IH]; intros l2 H; cbn [calc_sheets] in *; [injection H as <-; exists []; split; [reflexivity|constructor]|].
    apply bind_ok in H as (t2 & H1 & H). apply bind_ok in H as (r2 & H2 & H). injection H as <-. destruct (repeat_rel _ _ _ Rab H1) as (t1 & -> & Q). destruct (IH _ H2) as (r1 & -> & Qr). cbn [bind].
    eexists. split; [reflexivity|]. now constructor. }
  destruct G as (l1 & -> & G). cbn [bind]. eexists. split; [reflexivity|]. destruct w1 as [v1 n1 m1 c1 x1 d1 st1 va1 sh1 ex1], w2 as [v2 n2 m2 c2 x2 d2 st2 va2 sh2 ex2]. cbn [put_sheets wb_sheets] in *. split; [exact E|exact G].
Qed.
(** The whole workbook, with repeat counts kept: everything but the empty cells. *)
Definition fewer_book (w1 w2 : workbook) : Prop := put_sheets [] w1 = put_sheets [] w2 /\ Forall2 fewer_after (wb_sheets w1) (wb_sheets w2).
Theorem C68_books : forall c0,
  (forall f w2, WorkModel.read_ods false true c0 f = Ok w2 -> exists w1, WorkModel.read_ods true true c0 f = Ok w1 /\ fewer_book w1 w2)
  /\ (forall f w2, read_ods_only false true c0 f = Ok w2 -> exists w1, read_ods_only true true c0 f = Ok w1 /\ fewer_book w1 w2)
  /\ (forall t w2, WorkModel.read_fods false true c0 t = Ok w2 -> exists w1, WorkModel.read_fods true true c0 t = Ok w1 /\ fewer_book w1 w2)
  /\ (forall t w2, read_fods_only false true c0 t = Ok w2 -> exists w1, read_fods_only true true c0 t = Ok w1 /\ fewer_book w1 w2).
Proof.
  intros c0. split; [|split; [|split]].
  - intros f w2 H. unfold WorkModel.read_ods in *. apply bind_ok in H as (a1 & A1 & H). rewrite A1. cbn [bind]. apply bind_ok in H as (a2 & A2 & H). rewrite A2. cbn [bind]. apply bind_ok in H as (a3 & A3 & H). rewrite A3. cbn [bind].
    apply bind_ok in H as (a4 & A4 & H). apply (files_kept _ meta_kept) in A1. apply (files_kept _ settings_kept) in A2. apply (files_kept _ styles_kept) in A3.
    assert (E : wb_sheets a3 = []). { destruct A1 as ((_ & X1 & _) & _), A2 as ((_ & X2 & _) & _), A3 as ((_ & X3 & _) & _). rewrite <- X3, <- X2, <- X1. reflexivity. }
    destruct (file_sim _ _ content_sim _ _ _ _ (book_rel_refl _ E) A4) as (x1 & -> & R). cbn [bind]. eapply calc_book_rel; eauto.
  - intros f w2 H. unfold read_ods_only in *. apply bind_ok in H as (a4 & A4 & H). destruct (file_sim _ _ content_sim _ _ _ _ (book_rel_refl (work0 c0) eq_refl) A4) as (x1 & -> & R). cbn [bind]. eapply calc_book_rel; eauto.
  - intros f w2 H. unfold WorkModel.read_fods in *. apply bind_ok in H as (a4 & A4 & H). destruct (file_sim _ _ fods_sim _ _ _ _ (book_rel_refl (work0 c0) eq_refl) A4) as (x1 & -> & R). cbn [bind]. eapply calc_book_rel; eauto.
  - intros f w2 H. unfold read_fods_only in *. apply bind_ok in H as (a4 & A4 & H).
    assert (St : forall w1 w2 e r x2 q, book_rel w1 w2 -> fods_only_step false w2 e r = Ok (x2, q) -> exists x1, fods_only_step true w1 e r = Ok (x1, q) /\ book_rel x1 x2).
    { intros w1 w2' e r x2 q Rw K. unfold fods_only_step in *. destruct e; try (injection K as <- <-; eexists; split; [reflexivity|exact Rw]). destruct (str_eqb n t_body); [now apply (office_sim w1 w2')|]. injection K as <- <-; eexists; split; [reflexivity|exact Rw]. }
    destruct (file_sim _ _ St _ _ _ _ (book_rel_refl (work0 c0) eq_refl) A4) as (x1 & -> & R). cbn [bind]. eapply calc_book_rel; eauto.
Qed.

(** With repeats expanded: no repeat count above 1000, the cells inside rows, nothing where the repeats go. *)
Lemma counted_small rows r n : om_sorted N.ltb rows -> (forall q h, In (q, h) rows -> ra_repeat (h_attr h) <= 1000) ->
  counted rows r n <-> exists h, In (r, h) rows /\ n = ra_repeat (h_attr h).
Proof.
  intros S L. unfold counted. split.
  - intros (a & h & b & -> & D). assert (I : In (r, h) (a ++ (r, h) :: b)) by apply in_elt. exists h. split; [exact I|]. specialize (L _ _ I). lia.
  - intros (h & I & ->). pose proof (L _ _ I). apply in_split in I as (a & b & ->). exists a, h, b. split; [reflexivity|]. right. split; [now right|reflexivity].
Qed.
Theorem C68_cloned : forall evs s1 s2 r t2, read_table false evs = Ok (s2, r) -> read_table true evs = Ok (s1, r) -> calculations false s2 = Ok t2 ->
  (forall p c, In (p, c) (tb_cells s1) -> In (p, c) (tb_cells s2)) ->
  (forall q col c, In ((q, col), c) (tb_cells s1) -> exists h, In (q, h) (tb_rows s1) /\ h_span h = 1) ->
  (forall q h, In (q, h) (tb_rows s1) \/ In (q, h) (tb_rows s2) -> ra_repeat (h_attr h) <= 1000) ->
  apart (tb_rows s1) (tb_cells s1) -> apart (tb_rows s2) (tb_cells s2) ->
  exists t1, calculations false s1 = Ok t1 /\ same_table t1 t2 /\ forall p c, In (p, c) (tb_cells t1) <-> In (p, c) (tb_cells t2) /\ ~ empty_cell c.
Proof.
  intros evs s1 s2 r t2 H2 H1 K In12 Hd L A1 A2. destruct (read_rel evs s2 r H2) as (s1' & E & T & C & S1 & S2 & D). assert (s1' = s1) by congruence. subst s1'.
  destruct (rel_fewer s1 s2 T C) as (_ & F1 & F2). destruct C as (Sc1 & Sc2 & _).
  apply calc_ok in K as (cs & Ed & K). unfold calculations. assert (Ec : tb_cols s1 = tb_cols s2) by apply T. rewrite Ec, Ed. cbn [bind].
  destruct (CloneProps.C41_cells (put_cols cs s1)) as (t1 & E1 & I1 & R1); [apply S1|exact Sc1|exact A1|].
  destruct (CloneProps.C41_cells (put_cols cs s2)) as (t2' & E2 & I2 & R2); [apply S2|exact Sc2|exact A2|].
  assert (t2' = t2) by congruence. subst t2'. exists t1. split; [exact E1|].
  change (tb_cells (put_cols cs s1)) with (tb_cells s1) in *. change (tb_rows (put_cols cs s1)) with (tb_rows s1) in *. change (tb_cells (put_cols cs s2)) with (tb_cells s2) in *. change (tb_rows (put_cols cs s2)) with (tb_rows s2) in *.
  split.
  { destruct R1 as (P1 & P2 & P3 & P4 & P5 & P6 & P7 & P8 & P9 & P10 & P11), R2 as (Q1 & Q2 & Q3 & Q4 & Q5 & Q6 & Q7 & Q8 & Q9 & Q10 & Q11). unfold same_table in *.
    cbn [put_cols tb_name tb_style tb_ranges tb_print tb_display tb_extra tb_cols tb_gcols tb_grows tb_hcols tb_hrows] in *. destruct T as (T1 & T2 & T3 & T4 & T5 & T6 & T7 & T8 & T9 & T10 & T11). repeat split; congruence. }
  assert (Cell : forall p c, In (p, c) (tb_cells s1) <-> In (p, c) (tb_cells s2) /\ ~ empty_cell c).
  { intros p c. split; [intros I; split; [now apply In12|now apply F2 in I]|intros (I & N); now apply F1]. }
  assert (Cnt : forall q col c n, In ((q, col), c) (tb_cells s1) -> counted (tb_rows s1) q n <-> counted (tb_rows s2) q n).
  { intros q col c n I. rewrite (counted_small _ q n (proj1 S1)), (counted_small _ q n (proj1 S2)); [|intros; eapply L; eauto|intros; eapply L; eauto].
    destruct (Hd q col c I) as (h & J & Sp). assert (J2 : In (q, h) (tb_rows s2)).
    { apply (hget_in q h _ (proj1 S2)). apply (D (q, col) c h); [|now apply (hget_in q h _ (proj1 S1))|exact Sp]. now apply (get_in pltb pltb_order _ _ _ Sc1). }
    assert (U : forall m g, om_sorted N.ltb m -> In (q, h) m -> In (q, g) m -> g = h). { intros m g S X Y. apply (hget_in q _ m S) in X, Y. congruence. }
    split; intros (g & I' & ->).
    - rewrite (U _ g (proj1 S1) J I'). eauto.
    - rewrite (U _ g (proj1 S2) J2 I'). eauto. }
  assert (Emp : forall d k, copy_of d k -> (empty_cell k <-> empty_cell d)).
  { intros d k (X1 & X2 & X3 & X4 & _). rewrite <- !empty_ok. unfold cell_is_empty, is_void_extra. rewrite X1, X2, X4. reflexivity. }
  intros p c. rewrite I1, I2. unfold expanded. split.
  - intros (q & col & d & I & St & Lc & Cp & _). pose proof I as I0. apply Cell in I as (I & N). split.
    + exists q, col, d. split; [exact I|]. split; [|split; [exact Lc|split; [exact Cp|]]].
      * destruct St as [St|(n & Cn & Ln)]; [now left|]. right. exists n. split; [|exact Ln]. now apply (Cnt q col d n I0).
      * intros (_ & X & _). now apply N.
    + rewrite (Emp _ _ Cp). exact N.
  - intros ((q & col & d & I & St & Lc & Cp & Lo) & N). rewrite (Emp _ _ Cp) in N. assert (I0 : In ((q, col), d) (tb_cells s1)) by now apply Cell.
    exists q, col, d. split; [exact I0|]. split; [|split; [exact Lc|split; [exact Cp|]]].
    + destruct St as [St|(n & Cn & Ln)]; [now left|]. right. exists n. split; [|exact Ln]. now apply (Cnt q col d n I0).
    + intros (_ & X & _). now apply N.
Qed.

(** ** Examples *)

Definition row_of (n : str) (cs : list event) : list event := EStart t_row [(a_rrep, n)] :: cs ++ [EEnd t_row].
Definition ex_value (x : str) : event := EEmpty t_cell [(lit "office:value-type", lit "float"); (lit "office:value", x)].
Definition ex_styled (k : str) : event := EEmpty t_cell [(a_style, lit "ce1"); (a_crep, k)].
Definition ex_table (rows : list event) : list event := EStart t_table [(lit "table:name", lit "S")] :: rows ++ [EEnd t_table].
Definition cells_of (rep ign : bool) (evs : list event) : res (list (pos * bool)) :=
  let* (s, _) := read_table ign evs in let* t := calculations rep s in Ok (map (fun kv => (fst kv, cell_is_empty (snd kv))) (tb_cells t)).
(** Two rows with a value and styled cells, a row with styled cells only; with and without the empty cells. *)
Definition ex_rows : list event :=
  ex_table (row_of (lit "2") [ex_styled (lit "2"); ex_value (lit "1")] ++ row_of (lit "1") [ex_styled (lit "1")] ++ row_of (lit "1") [ex_value (lit "2"); ex_styled (lit "1")]).
Example C68_ignored_ex : cells_of true false ex_rows = Ok [((0, 0), true); ((0, 2), false); ((2, 0), true); ((3, 0), false); ((3, 1), true)]
  /\ cells_of true true ex_rows = Ok [((0, 2), false); ((3, 0), false)]
  /\ cells_of false false ex_rows = Ok [((0, 0), true); ((0, 1), true); ((0, 2), false); ((1, 0), true); ((1, 1), true); ((1, 2), false); ((2, 0), true); ((3, 0), false); ((3, 1), true)]
  /\ cells_of false true ex_rows = Ok [((0, 2), false); ((1, 2), false); ((3, 0), false)].
Proof. repeat split; vm_compute; reflexivity. Qed.
Example C68_books_ex : (let* f := WorkProps.ex_files WorkProps.ex_full in let* w := WorkModel.read_ods false true config0 f in let* x := read_ods_only true true config0 f in
    Ok (map tb_name (wb_sheets x), map tag_name (wb_extra x), wb_version x, forallb (fun t => existsb (fun u => str_eqb (tb_name t) (tb_name u)) (wb_sheets x)) (wb_sheets w), wb_meta x))
  = Ok ([lit "S<1>"], [lit "table:calculation-settings"; lit "table:named-expressions"], lit "1.3", true, meta0).
Proof. vm_compute. reflexivity. Qed.
Definition flat_text : str :=
  lit "<office:document office:version='1.2'><office:meta><meta:generator>g</meta:generator></office:meta><office:scripts/><office:body><office:spreadsheet><table:table table:name='S'></table:table></office:spreadsheet></office:body></office:document>".
Example C68_flat_ex : (let* w := WorkModel.read_fods false true config0 flat_text in let* x := read_fods_only false true config0 flat_text in
    Ok (map tb_name (wb_sheets w), map tb_name (wb_sheets x), wb_version w, wb_version x)) = Ok ([lit "S"], [lit "S"], lit "1.2", lit "1.3").
Proof. vm_compute. reflexivity. Qed.

(** ** What is wrong *)

(** A repeat count above 1000 is reset in the last five rows with a header. Without the empty cells these are other rows: a row of
    values is there once instead of 1001 times. *)
Definition ex_many : list event := ex_table (row_of (lit "1001") [ex_value (lit "7")] ++ concat (repeat (row_of (lit "1") [ex_styled (lit "1")]) 5)).
Theorem C68_cloned_refuted : exists evs p, (let* (s, _) := read_table false evs in let* t := calculations false s in Ok (match om_get pltb p (tb_cells t) with Some c => cell_is_empty c | None => true end)) = Ok false
  /\ (let* (s, _) := read_table true evs in let* t := calculations false s in Ok (om_get pltb p (tb_cells t))) = Ok None.
Proof. exists ex_many, (1000, 0). split; vm_compute; reflexivity. Qed.
(** With a repeat count of zero two cells are at one position; the last one counts. *)
Theorem C68_zero_refuted : exists evs p, (let* (s, _) := read_table false evs in Ok (option_map cell_is_empty (om_get pltb p (tb_cells s)))) = Ok (Some true)
  /\ (let* (s, _) := read_table true evs in Ok (option_map cell_is_empty (om_get pltb p (tb_cells s)))) = Ok (Some false).
Proof.
  exists (ex_table (row_of (lit "1") [EEmpty t_cell [(lit "office:value-type", lit "float"); (lit "office:value", lit "1"); (a_crep, lit "0")]; ex_styled (lit "1")])), (0, 0). split; vm_compute; reflexivity.
Qed.
(** A file that is read without the empty cells only: a row of them that is repeated zero times. *)
Theorem C68_panics_refuted : exists evs, read_table false evs = Panic /\ exists s r, read_table true evs = Ok (s, r) /\ tb_cells s = [].
Proof.
  exists (ex_table (row_of (lit "0") [ex_styled (lit "1")])). split; [vm_compute; reflexivity|]. eexists _, _. split; [vm_compute; reflexivity|]. reflexivity.
Qed.
(** An element named like the body inside a script: reading the content only takes it for the body. *)
Definition trap_text : str :=
  lit "<office:document><office:scripts><office:script script:language='b'><office:body><table:table table:name='T'></table:table></office:body></office:script></office:scripts>"
  ++ lit "<office:body><office:spreadsheet><table:table table:name='S'></table:table></office:spreadsheet></office:body></office:document>".
Theorem C68_flat_refuted : exists text, (let* w := WorkModel.read_fods false true config0 text in Ok (map tb_name (wb_sheets w))) = Ok [lit "S"]
  /\ (let* w := read_fods_only false true config0 text in Ok (map tb_name (wb_sheets w))) = Ok [lit "T"; lit "S"].
Proof. exists trap_text. split; vm_compute; reflexivity. Qed.

Print Assumptions C68_content.
Print Assumptions C68_flat.
Print Assumptions C68_flat_rest.
Print Assumptions C68_ignored.
Print Assumptions C68_books.
Print Assumptions C68_cloned.
Print Assumptions C68_cloned_refuted.
Print Assumptions C68_zero_refuted.
Print Assumptions C68_panics_refuted.
Print Assumptions C68_flat_refuted.
