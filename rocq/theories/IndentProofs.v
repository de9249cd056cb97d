(** Lemmas about readers that pass over indentation. *)
From Verif Require Import Base Lib NumModel XmlModel XmlSpec XmlProofs CellModel CellIoModel DrawModel HeaderModel TableModel CloneModel BookModel ScriptModel ValidModel StyleModel MetaModel ConfigModel WorkModel TermModel TermSpec TermProofs IndentSpec.

Definition opened (e : event) (st : list str) : list str := match e with EStart n _ => n :: st | EEnd _ => tl st | _ => st end.
Definition fine (e : event) (st : list str) : Prop := match e with EEnd n => exists st0, st = n :: st0 | EEmpty n _ => n <> script_name | _ => True end.
Lemma thin_inv st e r l : thin st (e :: r) l ->
  (exists r', l = e :: r' /\ thin (opened e st) r r' /\ fine e st) \/ (exists t, e = EText t /\ forallb structural st = true /\ thin st r l).
Proof. intros H. inversion H; subst; cbn [opened fine]; try (left; eexists; repeat split; eauto; fail). right. eauto. Qed.
Lemma structural_not_in st n : In n st -> structural n = false -> forallb structural st = false.
Proof. intros I S. destruct (forallb structural st) eqn:E; [|reflexivity]. rewrite forallb_forall in E. specialize (E n I). congruence. Qed.
(** Inside an element that is not structural nothing is left out. *)
Lemma thin_lock st n e r l : In n st -> structural n = false -> thin st (e :: r) l ->
  exists r', l = e :: r' /\ thin (opened e st) r r' /\ (e = EEnd n \/ In n (opened e st)).
Proof.
  intros I S H. destruct (thin_inv _ _ _ _ H) as [(r' & -> & T & F)|(t & _ & K & _)]; [|rewrite (structural_not_in _ _ I S) in K; discriminate].
  exists r'. split; [reflexivity|]. split; [exact T|]. destruct e; cbn [opened fine] in *; auto; [now right; right|]. destruct F as (st0 & ->). cbn [tl]. destruct I as [-> |I]; auto.
Qed.

Definition rel {A} (x y : res (A * list event)) : Prop :=
  match x, y with Ok (a, r), Ok (b, r') => a = b /\ exists st, thin st r r' | Err, Err => True | Panic, Panic => True | _, _ => False end.
Lemma rel_ok {A} (a : A) st r r' : thin st r r' -> rel (Ok (a, r)) (Ok (a, r')). Proof. intros H. split; eauto. Qed.
Lemma rel_err {A} : @rel A Err Err. Proof. exact I. Qed.
Lemma rel_panic {A} : @rel A Panic Panic. Proof. exact I. Qed.
Lemma bind_rel {A B} (x y : res (A * list event)) (k k' : A * list event -> res (B * list event)) : rel x y ->
  (forall a r r' st, thin st r r' -> rel (k (a, r)) (k' (a, r'))) -> rel (bind x k) (bind y k').
Proof. intros R K. destruct x as [(a & r)| |], y as [(b & r')| |]; cbn in R; try contradiction; [|exact I|exact I]. destruct R as (-> & st & T). cbn [bind]. eapply K, T. Qed.
Lemma bind_rel_same {A B} (x : res A) (k k' : A -> res (B * list event)) : (forall a, rel (k a) (k' a)) -> rel (bind x k) (bind x k').
Proof. intros K. destruct x; cbn [bind]; [apply K|exact I|exact I]. Qed.
#[local] Hint Resolve rel_err rel_panic : core.

(** What is known of the elements around when an event has been taken. *)
Definition entered (e : event) (st : list str) : Prop := match e with EStart n _ => In n st | EEmpty n _ => n <> script_name | _ => True end.
Lemma entered_opened e st : fine e st -> entered e (opened e st). Proof. destruct e; cbn; auto. Qed.
Definition deaf {S} (step : S -> event -> list event -> res (S * list event)) : Prop :=
  (forall s t r, step s (EText t) r = Ok (s, r)) /\ (forall s e st r r', entered e st -> thin st r r' -> rel (step s e r) (step s e r')).
Lemma reading_thin {S} stop (step : S -> event -> list event -> res (S * list event)) : deaf step -> shrinks step ->
  forall n m s st evs evs', thin st evs evs' -> (length evs <= n)%nat -> (length evs' <= m)%nat -> rel (reading n stop step s evs) (reading m stop step s evs').
Proof.
  intros (A & B) K. induction n as [|n IH]; intros m s st evs evs' T L M.
  - destruct evs; [|cbn in L; lia]. inversion T; subst. destruct m; exact (rel_ok _ [] [] [] (thin_nil [])).
  - destruct evs as [|e r]; [inversion T; subst; destruct m; exact (rel_ok _ [] [] [] (thin_nil []))|]. cbn [length] in L. destruct (thin_inv _ _ _ _ T) as [(r' & -> & T' & F)|(t & -> & _ & T')].
    + cbn [length] in M. destruct m as [|m]; [lia|]. cbn [reading]. destruct (match e, stop with EEnd t, Some q => str_eqb t q | _, _ => false end); [eapply rel_ok, T'|].
      pose proof (B s e _ r r' (entered_opened _ _ F) T') as R. destruct (step s e r) as [(s1 & r1)| |] eqn:E1, (step s e r') as [(s2 & r2)| |] eqn:E2; cbn in R; try contradiction; [|exact I|exact I].
      destruct R as (<- & st2 & T2). cbn [bind]. apply K in E1. apply K in E2. apply sfx_length in E1. apply sfx_length in E2. eapply IH; [exact T2|lia|lia].
    + cbn [reading]. rewrite A. cbn [bind]. eapply IH; [exact T'|lia|exact M].
Qed.
Lemma reading_deaf {S} stop (step : S -> event -> list event -> res (S * list event)) : deaf step -> shrinks step ->
  forall s st evs evs', thin st evs evs' -> rel (reading (length evs) stop step s evs) (reading (length evs') stop step s evs').
Proof. intros A B s st evs evs' T. eapply reading_thin; eauto. Qed.

(** ** Trees and text *)

Lemma xml_loop_thin super : structural super = false -> forall evs stk st evs', In super st -> thin st evs evs' -> rel (read_xml_loop super stk evs) (read_xml_loop super stk evs').
Proof.
  intros S. induction evs as [|e evs IH]; intros stk st evs' I0 T.
  - inversion T; subst. cbn [read_xml_loop]. destruct stk; [exact I|exact (rel_ok _ [] [] [] (thin_nil []))].
  - destruct (thin_lock _ _ _ _ _ I0 S T) as (r' & -> & T' & O). cbn [read_xml_loop].
    assert (C : e <> EEnd super -> forall stk', rel (read_xml_loop super stk' evs) (read_xml_loop super stk' r')) by (intros N stk'; destruct O as [O|O]; [contradiction|eapply IH; eauto]).
    destruct e; try (apply C; discriminate); try (apply bind_rel_same; intros; apply C; discriminate).
    + destruct (str_eqb n super) eqn:E; [destruct stk; [exact I|eapply rel_ok, T']|]. destruct stk; [exact I|]. apply bind_rel_same. intros. apply C. intros X. injection X as ->. rewrite str_eqb_refl in E. discriminate.
    + apply bind_rel_same. intros. apply bind_rel_same. intros. apply C. discriminate.
Qed.
Lemma xml_thin n a b st evs evs' : structural n = false -> (b = false -> In n st) -> thin st evs evs' -> rel (read_xml n a b evs) (read_xml n a b evs').
Proof. intros S I0 T. unfold read_xml. destruct b; [eapply rel_ok, T|]. eapply xml_loop_thin; eauto. Qed.
Lemma para_step_end super a pc st e x : para_step super a pc st e = Ok (inl x) -> e <> EEnd super.
Proof. intros H ->. cbn [para_step] in H. rewrite str_eqb_refl in H. destruct st; discriminate. Qed.
Lemma para_thin super a : structural super = false -> forall evs pc stk st evs', In super st -> thin st evs evs' -> rel (para_loop super a pc stk evs) (para_loop super a pc stk evs').
Proof.
  intros S. induction evs as [|e evs IH]; intros pc stk st evs' I0 T.
  - inversion T; subst. cbn [para_loop]. exact (rel_ok _ [] [] [] (thin_nil [])).
  - destruct (thin_lock _ _ _ _ _ I0 S T) as (r' & -> & T' & O). cbn [para_loop].
    destruct (para_step super a pc stk e) as [[(pc' & st')|t']| |] eqn:E; cbn [bind]; [|eapply rel_ok, T'|exact I|exact I].
    apply para_step_end in E. destruct O as [O|O]; [contradiction|]. eapply IH; eauto.
Qed.
Lemma text_thin n a b st evs evs' : structural n = false -> (b = false -> In n st) -> thin st evs evs' -> rel (read_text_or_tag n a b evs) (read_text_or_tag n a b evs').
Proof. intros S I0 T. unfold read_text_or_tag. destruct b; [eapply rel_ok, T|]. eapply para_thin; eauto. Qed.
Lemma message_thin {T0} (ty : option (str -> res T0)) m0 tag a b st evs evs' : structural tag = false -> (b = false -> In tag st) -> thin st evs evs' ->
  rel (read_message ty m0 tag a b evs) (read_message ty m0 tag a b evs').
Proof.
  intros S I0 T. unfold read_message. apply bind_rel_same. intros m. eapply bind_rel; [eapply text_thin; eauto|]. intros t r r' st' T'. destruct t; try exact I; eapply rel_ok, T'.
Qed.
Lemma eqb_structural n t : str_eqb n t = true -> structural t = false -> structural n = false.
Proof. intros E S. apply str_eqb_eq in E. now subst. Qed.
Lemma valids_thin n : forall m st evs evs' v bk, thin st evs evs' -> (length evs <= n)%nat -> (length evs' <= m)%nat -> rel (read_valids n evs v bk) (read_valids m evs' v bk).
Proof.
  induction n as [|n IH]; intros m st evs evs' v bk T L M.
  - destruct evs; [|cbn in L; lia]. inversion T; subst. destruct m; exact (rel_ok _ [] [] [] (thin_nil [])).
  - destruct evs as [|e r]; [inversion T; subst; destruct m; exact (rel_ok _ [] [] [] (thin_nil []))|]. cbn [length] in L. destruct (thin_inv _ _ _ _ T) as [(r' & -> & T' & F)|(t & -> & _ & T')].
    + cbn [length] in M. destruct m as [|m]; [lia|].
      assert (R : forall v' bk', rel (read_valids n r v' bk') (read_valids m r' v' bk')) by (intros; eapply IH; [exact T'|lia|lia]).
      assert (Q : forall T0 (ty : option (str -> res T0)) m0 t a b (k : message T0 -> validation), structural t = false -> (b = false -> In t (opened e st)) ->
        rel (let* (x, r1) := read_message ty m0 t a b r in read_valids n r1 (k x) bk) (let* (x, r1) := read_message ty m0 t a b r' in read_valids m r1 (k x) bk)).
      { intros T0 ty m0 t a b k S I0. pose proof (message_thin ty m0 t a b _ _ _ S I0 T') as X.
        destruct (read_message ty m0 t a b r) as [(x & r1)| |] eqn:E1, (read_message ty m0 t a b r') as [(x' & r2)| |] eqn:E2; cbn in X; try contradiction; [|exact I|exact I].
        destruct X as (<- & st2 & T2). cbn [bind]. apply message_sfx in E1. apply message_sfx in E2. apply sfx_length in E1. apply sfx_length in E2. eapply IH; [exact T2|lia|lia]. }
      destruct e; cbn [read_valids opened] in *; try (apply R).
      * destruct (str_eqb n0 t_valid); [apply bind_rel_same; intros w; apply bind_rel_same; intros (b1 & n1); apply R|].
        destruct (str_eqb n0 t_err) eqn:E; [apply Q; [exact (eqb_structural _ _ E eq_refl)|now left]|].
        destruct (str_eqb n0 t_help) eqn:E'; [apply Q; [exact (eqb_structural _ _ E' eq_refl)|now left]|]. apply R.
      * destruct (str_eqb n0 t_err) eqn:E; [apply Q; [exact (eqb_structural _ _ E eq_refl)|discriminate]|].
        destruct (str_eqb n0 t_help) eqn:E'; [apply Q; [exact (eqb_structural _ _ E' eq_refl)|discriminate]|]. apply R.
      * destruct (str_eqb n0 t_valid); [apply bind_rel_same; intros (b1 & n1); apply R|]. destruct (str_eqb n0 t_valids); [eapply rel_ok, T'|]. apply R.
    + cbn [read_valids]. eapply IH; [exact T'|lia|exact M].
Qed.

(** ** Styles *)

Ltac rel_parts := repeat match goal with
  | |- rel (let (_, _) := ?p in _) _ => destruct p
  | |- rel (if ?b then _ else _) _ => destruct b
  | |- rel (match ?o with Some _ => _ | None => _ end) _ => destruct o
  | |- rel (let* _ := ?x in _) (let* _ := ?x in _) => apply bind_rel_same; intro
  | |- rel (Ok _) (Ok _) => eapply rel_ok; eassumption
  | |- rel Err Err => exact I
  | p : (_ * _)%type |- _ => destruct p
  end.
Lemma font_deaf : deaf font_step.
Proof. split; [reflexivity|]. intros s e st r r' _ T. unfold font_step. destruct (on_tag e) as [((n & a) & b)|]; rel_parts. Qed.
Lemma fonts_thin o b st evs evs' : thin st evs evs' -> rel (read_fonts o b evs) (read_fonts o b evs').
Proof. intros T. unfold read_fonts. eapply bind_rel; [eapply (reading_deaf _ _ font_deaf font_shrinks), T|]. intros. rel_parts. Qed.
Lemma style_deaf f : deaf (style_step f).
Proof. split; [reflexivity|]. intros s e st r r' _ T. unfold style_step. destruct (on_tag e) as [((n & a) & b)|]; [|rel_parts]. destruct f; rel_parts. Qed.
Lemma style_thin f o u tag a b bk st evs evs' : thin st evs evs' -> rel (read_style f o u tag a b bk evs) (read_style f o u tag a b bk evs').
Proof.
  intros T. unfold read_style. destruct (copy_style_attr a) as (nm & at'). destruct b; [rel_parts|].
  eapply bind_rel; [eapply (reading_deaf _ _ (style_deaf f) (style_shrinks f)), T|]. intros p r r' st' T'. rel_parts.
Qed.
Lemma style_style_thin todo : forall o u tag a b bk st evs evs', thin st evs evs' -> rel (read_style_style todo o u tag a b bk evs) (read_style_style todo o u tag a b bk evs').
Proof.
  induction todo as [|(k & v) todo IH]; intros o u tag a b bk st evs evs' T; cbn [read_style_style]; [rel_parts|]. destruct (str_eqb k k_family); [|eapply IH, T].
  destruct (family_of (raw v)); [|exact I]. eapply bind_rel; [eapply style_thin, T|]. intros. eapply IH; eassumption.
Qed.
(** A loop inside an element that is not structural. *)
Lemma reading_lock {S} tag (g : S -> event -> res S) : structural tag = false -> forall n m s st evs evs', In tag st -> thin st evs evs' -> (length evs <= n)%nat -> (length evs' <= m)%nat ->
  rel (reading n (Some tag) (fun s e r => let* s' := g s e in Ok (s', r)) s evs) (reading m (Some tag) (fun s e r => let* s' := g s e in Ok (s', r)) s evs').
Proof.
  intros K. induction n as [|n IH]; intros m s st evs evs' I0 T L M.
  - destruct evs; [|cbn in L; lia]. inversion T; subst. destruct m; exact (rel_ok _ [] [] [] (thin_nil [])).
  - destruct evs as [|e r]; [inversion T; subst; destruct m; exact (rel_ok _ [] [] [] (thin_nil []))|]. cbn [length] in L.
    destruct (thin_lock _ _ _ _ _ I0 K T) as (r' & -> & T' & O). cbn [length] in M. destruct m as [|m]; [lia|]. cbn [reading].
    destruct (match e with EEnd t => str_eqb t tag | _ => false end) eqn:E; [eapply rel_ok, T'|].
    destruct O as [-> |O]; [rewrite str_eqb_refl in E; discriminate|]. destruct (g s e) as [s'| |]; cbn [bind]; [|exact I|exact I]. eapply IH; [exact O|exact T'|lia|lia].
Qed.
Definition part_fun (ty : ptype) (s : part) (e : event) : res part :=
  match ty with
  | PTextPart | PCurrency | PFill => match e with ERef t => let* v := entity t in Ok (append_content v s) | EText t => Ok (append_content t s) | _ => Ok s end
  | PNumber => match e with
      | EStart n a | EEmpty n a => if str_eqb n t_embedded then position_attrs s a else Ok s
      | EText t => Ok (Part (pt_type s) (pt_attr s) (pt_pos s) (Some t))
      | _ => Ok s
      end
  | _ => Ok s
  end.
Lemma bind_assoc {A B C} (x : res A) (f : A -> res B) (g : B -> res C) : bind (bind x f) g = bind x (fun a => bind (f a) g). Proof. destruct x; reflexivity. Qed.
Lemma part_fun_step ty s e r : (match ty with PTextPart | PCurrency | PFill => text_step | PNumber => number_step | _ => skip_step end) s e r = (let* s' := part_fun ty s e in Ok (s', r)).
Proof.
  destruct ty; cbn [part_fun]; try reflexivity; destruct e; cbn [text_step number_step]; try reflexivity; try (destruct (str_eqb n t_embedded); reflexivity); try (now rewrite bind_assoc).
Qed.
Lemma reading_ext {S} stop (f g : S -> event -> list event -> res (S * list event)) : (forall s e r, f s e r = g s e r) -> forall n s evs, reading n stop f s evs = reading n stop g s evs.
Proof.
  intros E. induction n as [|n IH]; intros s evs; destruct evs as [|e r]; try reflexivity. cbn [reading]. rewrite E. destruct (match e, stop with EEnd t, Some q => str_eqb t q | _, _ => false end); [reflexivity|].
  destruct (g s e r) as [(s' & r')| |]; cbn [bind]; auto.
Qed.
Lemma part_structural n ty : part_of n = Some ty -> structural n = false.
Proof.
  unfold part_of. destruct (str_eqb n (lit "loext:text")) eqn:E1; [intros _; exact (eqb_structural _ _ E1 eq_refl)|]. destruct (str_eqb n (lit "loext:fill-character")) eqn:E2; [intros _; exact (eqb_structural _ _ E2 eq_refl)|].
  intros H. apply find_some in H as (_ & H). apply str_eqb_eq in H. subst n. destruct ty; reflexivity.
Qed.
Lemma part_thin ty tag a b st evs evs' : structural tag = false -> (b = false -> In tag st) -> thin st evs evs' -> rel (read_part ty tag a b evs) (read_part ty tag a b evs').
Proof.
  intros S I0 T. unfold read_part. destruct b; [rel_parts|]. cbv zeta. rewrite !(reading_ext _ _ _ (part_fun_step ty)). eapply bind_rel; [eapply (reading_lock tag (part_fun ty) S); eauto|]. intros. rel_parts.
Qed.
Lemma on_tag_in e n a b st : on_tag e = Some (n, a, b) -> entered e st -> b = false -> In n st.
Proof. destruct e; cbn; intros H E B; try discriminate; injection H as <- <- <-; [exact E|discriminate]. Qed.
Lemma format_deaf : deaf format_step.
Proof.
  split; [reflexivity|]. intros s e st r r' N T. unfold format_step. destruct (on_tag e) as [((n & a) & b)|] eqn:O; [|rel_parts]. destruct (part_of n) as [ty|] eqn:P.
  - eapply bind_rel; [eapply part_thin; [eapply part_structural, P|eapply on_tag_in; eauto|exact T]|]. intros. rel_parts.
  - destruct s. rel_parts.
Qed.
Lemma format_thin f o u tag a bk st evs evs' : thin st evs evs' -> rel (read_format f o u tag a bk evs) (read_format f o u tag a bk evs').
Proof.
  intros T. unfold read_format. destruct (copy_style_attr a). eapply bind_rel; [eapply (reading_deaf _ _ format_deaf format_shrinks), T|]. intros. rel_parts.
Qed.
Lemma page_deaf : deaf page_step.
Proof. split; [intros (([us p h f] & hd) & ft) t r; reflexivity|]. intros (([us p h f] & hd) & ft) e st r r' _ T. unfold page_step. destruct e; rel_parts. Qed.
Lemma page_thin a bk st evs evs' : thin st evs evs' -> rel (read_page a bk evs) (read_page a bk evs').
Proof.
  intros T. unfold read_page. destruct (fold_left page_attr a _). eapply bind_rel; [eapply (reading_deaf _ _ page_deaf page_shrinks), T|]. intros q r r' st' T'. apply bind_rel_same. intros. rel_parts.
Qed.
Lemma hf_deaf : deaf hf_step.
Proof.
  split; [reflexivity|]. intros s e st r r' N T. unfold hf_step. destruct (on_tag e) as [((n & a) & b)|] eqn:O; [|rel_parts]. destruct s as ([d le ce ri co] & tc).
  pose proof (on_tag_in _ _ _ _ _ O N) as I0.
  destruct (str_eqb n t_left) eqn:E1; [eapply bind_rel; [eapply xml_thin; [exact (eqb_structural _ _ E1 eq_refl)|exact I0|exact T]|intros; rel_parts]|].
  destruct (str_eqb n t_center) eqn:E2; [eapply bind_rel; [eapply xml_thin; [exact (eqb_structural _ _ E2 eq_refl)|exact I0|exact T]|intros; rel_parts]|].
  destruct (str_eqb n t_right) eqn:E3; [eapply bind_rel; [eapply xml_thin; [exact (eqb_structural _ _ E3 eq_refl)|exact I0|exact T]|intros; rel_parts]|].
  destruct (str_eqb n t_p || str_eqb n t_h) eqn:E4; [|rel_parts]. apply orb_true_iff in E4.
  eapply bind_rel; [eapply text_thin; [destruct E4 as [E4|E4]; exact (eqb_structural _ _ E4 eq_refl)|exact I0|exact T]|intros; rel_parts].
Qed.
Lemma hf_thin tag a st evs evs' : thin st evs evs' -> rel (read_hf tag a evs) (read_hf tag a evs').
Proof.
  intros T. unfold read_hf. apply bind_rel_same. intros h. eapply bind_rel; [eapply (reading_deaf _ _ hf_deaf hf_shrinks), T|]. intros p r r' st' T'. destruct (snd p) as ([d le ce ri co] & tc). rel_parts.
Qed.
Lemma master_deaf : deaf master_step.
Proof. split; [reflexivity|]. intros s e st r r' _ T. unfold master_step. destruct e; try (rel_parts; fail). destruct (hslot_of n); [|rel_parts]. eapply bind_rel; [eapply hf_thin, T|]. intros. rel_parts. Qed.
Lemma master_thin a bk st evs evs' : thin st evs evs' -> rel (read_master a bk evs) (read_master a bk evs').
Proof.
  intros T. unfold read_master. destruct (fold_left master_attr a _). eapply bind_rel; [eapply (reading_deaf _ _ master_deaf master_shrinks), T|]. intros q r r' st' T'. apply bind_rel_same. intros. rel_parts.
Qed.
Lemma styles_deaf o : deaf (styles_step o).
Proof.
  split; [reflexivity|]. intros s e st r r' _ T. unfold styles_step. destruct (on_tag e) as [((n & a) & b)|]; [|rel_parts].
  destruct (str_eqb n t_style); [eapply style_style_thin, T|]. destruct (str_eqb n t_default); [eapply style_style_thin, T|]. destruct (format_of n); [eapply format_thin, T|rel_parts].
Qed.
Lemma automatic_deaf o : deaf (automatic_step o).
Proof.
  split; [reflexivity|]. intros s e st r r' _ T. unfold automatic_step. destruct (on_tag e) as [((n & a) & b)|]; [|rel_parts].
  destruct (str_eqb n t_style); [eapply style_style_thin, T|]. destruct (str_eqb n t_page); [eapply page_thin, T|]. destruct (format_of n); [eapply format_thin, T|rel_parts].
Qed.
Lemma masters_deaf : deaf masters_step.
Proof. split; [reflexivity|]. intros s e st r r' _ T. unfold masters_step. destruct (on_tag e) as [((n & a) & b)|]; [|rel_parts]. destruct (str_eqb n t_master); [eapply master_thin, T|rel_parts]. Qed.
Lemma doc_deaf o : deaf (doc_step o).
Proof.
  split; [reflexivity|]. intros s e st r r' _ T. unfold doc_step. destruct e; try (rel_parts; fail). destruct (str_eqb n t_fonts); [eapply fonts_thin, T|].
  destruct (str_eqb n t_office_styles); [eapply bind_rel; [eapply (reading_deaf _ _ (styles_deaf o) (styles_shrinks o)), T|intros; rel_parts]|].
  destruct (str_eqb n t_automatic); [eapply bind_rel; [eapply (reading_deaf _ _ (automatic_deaf o) (automatic_shrinks o)), T|intros; rel_parts]|].
  destruct (str_eqb n t_masters); [eapply bind_rel; [eapply (reading_deaf _ _ masters_deaf masters_shrinks), T|intros; rel_parts]|rel_parts].
Qed.
Lemma scripts_deaf : deaf scripts_step.
Proof.
  split; [reflexivity|]. intros s e st r r' N T. unfold scripts_step. destruct (on_tag e) as [((n & a) & b)|] eqn:O; [|rel_parts].
  destruct (str_eqb n t_script) eqn:E; [|rel_parts]. apply str_eqb_eq in E. subst n. eapply bind_rel; [eapply (xml_thin t_script a false st); [reflexivity| |exact T]|intros; rel_parts].
  intros _. destruct e; cbn in O; try discriminate; injection O as -> -> <-; [exact N|]. cbn in N. contradiction.
Qed.

(** ** Tables *)

Definition sub_in (m : smode) (st : list str) : Prop :=
  match m with
  | SAnn _ | SFrame _ | SImage _ _ => True
  | SAnnText _ d _ => In (text_tag d) st
  | SFrameText _ d _ => In (frame_tag d) st
  | SImageData _ _ _ => In t_data st
  | SAnnTree _ n _ | SImageTree _ _ n _ => In n st /\ structural n = false
  end.
Lemma in_opened n e st : In n st -> fine e st -> e <> EEnd n -> In n (opened e st).
Proof. intros I0 F N. destruct e; cbn [opened fine] in *; auto; [now right|]. destruct F as (st0 & ->). cbn [tl]. destruct I0 as [-> |I0]; [congruence|exact I0]. Qed.
Lemma rtext_end n t e t' : rtext_step n t e = Ok (inl t') -> e <> EEnd n.
Proof. intros H ->. cbn [rtext_step] in H. rewrite str_eqb_refl in H. discriminate. Qed.
Lemma tree_end n stk e x : tree_step n stk e = Ok (inl x) -> e <> EEnd n.
Proof. intros H ->. cbn [tree_step] in H. rewrite str_eqb_refl in H. destruct stk; discriminate. Qed.
Lemma text_tag_not d : structural (text_tag d) = false. Proof. destruct d; reflexivity. Qed.
Lemma frame_tag_not d : structural (frame_tag d) = false. Proof. destruct d; reflexivity. Qed.
Lemma is_text_not n : is_text_tag n = true -> structural n = false.
Proof. unfold is_text_tag. intros H. apply orb_true_iff in H as [H|H]; exact (eqb_structural _ _ H eq_refl). Qed.
Lemma sub_keeps m e st m' : sub_in m st -> fine e st -> sub_step m e = Ok (inl m') -> sub_in m' (opened e st).
Proof.
  intros I0 F H. destruct m; cbn [sub_step sub_in] in *.
  - destruct e; cbn [opened];
      repeat match type of H with (if ?b then _ else _) = _ => destruct b eqn:? end; try discriminate; injection H as <-; cbn [sub_in]; auto.
    + left. now apply str_eqb_eq.
    + left. now apply str_eqb_eq.
    + split; [now left|now apply is_text_not].
  - apply bind_ok in H as ([t'|t'] & E & H); [injection H as <-; apply rtext_end in E; cbn [sub_in]; now apply in_opened|]. apply bind_ok in H as (a' & _ & H). injection H as <-. exact I.
  - destruct I0 as (I0 & S). apply bind_ok in H as ([t'|t'] & E & H); injection H as <-; [|exact I]. apply tree_end in E. split; [now apply in_opened|exact S].
  - destruct e; cbn [opened];
      repeat match type of H with (if ?b then _ else _) = _ => destruct b eqn:? end; try discriminate; injection H as <-; cbn [sub_in]; auto.
    + left. now apply str_eqb_eq.
    + left. now apply str_eqb_eq.
  - apply bind_ok in H as ([t'|t'] & E & H); injection H as <-; [|exact I]. apply rtext_end in E. cbn [sub_in]. now apply in_opened.
  - destruct e; cbn [opened];
      repeat match type of H with (if ?b then _ else _) = _ => destruct b eqn:? end; try discriminate; injection H as <-; cbn [sub_in]; auto.
    + left. now apply str_eqb_eq.
    + split; [now left|now apply is_text_not].
  - apply bind_ok in H as ([t'|t'] & E & H); injection H as <-; [|exact I]. apply rtext_end in E. cbn [sub_in]. now apply in_opened.
  - destruct I0 as (I0 & S). apply bind_ok in H as ([t'|t'] & E & H); injection H as <-; [|exact I]. apply tree_end in E. split; [now apply in_opened|exact S].
Qed.
Lemma sub_text m t st : sub_in m st -> forallb structural st = true -> sub_step m (EText t) = Ok (inl m).
Proof.
  intros I0 F. destruct m; cbn [sub_in sub_step] in *; try reflexivity; exfalso.
  - rewrite (structural_not_in _ _ I0 (text_tag_not _)) in F. discriminate.
  - destruct I0 as (I0 & S). rewrite (structural_not_in _ _ I0 S) in F. discriminate.
  - rewrite (structural_not_in _ _ I0 (frame_tag_not _)) in F. discriminate.
  - rewrite (structural_not_in _ _ I0 eq_refl) in F. discriminate.
  - destruct I0 as (I0 & S). rewrite (structural_not_in _ _ I0 S) in F. discriminate.
Qed.
Definition cell_in (m : cmode) (st : list str) : Prop := match m with KCell => True | KPara _ _ _ => In t_p st | KSub q => sub_in q st end.
Lemma sub_start_in n a st q : sub_start (EStart n a) = Ok q -> sub_in q st.
Proof.
  cbn [sub_start]. destruct (str_eqb n t_annotation); [intros H; apply bind_ok in H as (x & _ & H); injection H as <-; exact I|]. destruct (str_eqb n t_frame); [|discriminate]. intros H. injection H as <-. exact I.
Qed.
Lemma cell_keeps tag x m e st x' m' : cell_in m st -> fine e st -> cell_step tag x m e = Ok (inl (x', m')) -> cell_in m' (opened e st).
Proof.
  intros I0 F H. destruct m; cbn [cell_in cell_step] in *.
  - destruct e; cbn [opened]; repeat match type of H with (if ?b then _ else _) = _ => destruct b eqn:? end; try discriminate; try (injection H as <- <-; exact I).
    + injection H as <- <-. left. now apply str_eqb_eq.
    + apply bind_ok in H as (q & E & H). injection H as <- <-. eapply sub_start_in, E.
  - apply bind_ok in H as ([(pc' & st')|t] & E & H); injection H as <- <-; [|exact I]. apply para_step_end in E. cbn [cell_in]. now apply in_opened.
  - apply bind_ok in H as ([q|d] & E & H); injection H as <- <-; [|exact I]. cbn [cell_in]. eapply sub_keeps; eauto.
Qed.
Lemma cell_text tag x m t st : cell_in m st -> forallb structural st = true -> cell_step tag x m (EText t) = Ok (inl (x, m)).
Proof.
  intros I0 F. destruct m; cbn [cell_in cell_step] in *; [reflexivity| |]; [rewrite (structural_not_in _ _ I0 eq_refl) in F; discriminate|]. rewrite (sub_text _ _ _ I0 F). reflexivity.
Qed.
Definition table_in (m : tmode) (st : list str) : Prop := match m with MTable => True | MCell _ _ c => cell_in c st | MTree n _ => In n st /\ structural n = false end.
Lemma extras_not n : existsb (str_eqb n) (prelude ++ epilogue) = true -> structural n = false.
Proof. intros H. apply existsb_exists in H as (x & X & E). apply str_eqb_eq in E. subst n. cbn in X. repeat destruct X as [<- |X]; try reflexivity. contradiction. Qed.
Lemma table_keeps ign s m e st s' m' : table_in m st -> fine e st -> table_step ign s m e = Ok (inl (s', m')) -> table_in m' (opened e st).
Proof.
  intros I0 F H. destruct m; cbn [table_in table_step] in *.
  - destruct e; cbn [opened]; cbn [table_event] in H; try (injection H as <- <-; exact I).
    + destruct (existsb (str_eqb n) (prelude ++ epilogue)) eqn:E; [injection H as <- <-; split; [now left|now apply extras_not]|].
      repeat match type of H with (if ?b then _ else _) = _ => destruct b eqn:? end; repeat match type of H with (let* _ := _ in _) = _ => apply bind_ok in H as (? & _ & H) end;
        repeat match goal with p : (_ * _)%type |- _ => destruct p end; injection H as <- <-; exact I.
    + repeat match type of H with (if ?b then _ else _) = _ => destruct b eqn:? end; repeat match type of H with (let* _ := _ in _) = _ => apply bind_ok in H as (? & _ & H) end;
        repeat match goal with p : (_ * _)%type |- _ => destruct p end; try (apply bind_ok in H as (? & _ & H)); injection H as <- <-; exact I.
    + destruct (str_eqb n t_table); [discriminate|].
      repeat match type of H with (if ?b then _ else _) = _ => destruct b eqn:? | match ?l with [] => _ | _ :: _ => _ end = _ => destruct l end;
        repeat match type of H with (let* _ := _ in _) = _ => apply bind_ok in H as (? & _ & H) end; injection H as <- <-; exact I.
  - apply bind_ok in H as ([(x' & cm')|x'] & E & H); [injection H as <- <-; cbn [table_in]; eapply cell_keeps; eauto|].
    repeat match type of H with (let* _ := _ in _) = _ => apply bind_ok in H as (? & _ & H) end. injection H as <- <-. exact I.
  - destruct I0 as (I0 & S). apply bind_ok in H as ([st'|x] & E & H); injection H as <- <-; [|exact I]. apply tree_end in E. split; [now apply in_opened|exact S].
Qed.
Lemma table_text ign s m t st : table_in m st -> forallb structural st = true -> table_step ign s m (EText t) = Ok (inl (s, m)).
Proof.
  intros I0 F. destruct m; cbn [table_in table_step] in *; [reflexivity| |].
  - rewrite (cell_text _ _ _ _ _ I0 F). reflexivity.
  - destruct I0 as (I0 & S). rewrite (structural_not_in _ _ I0 S) in F. discriminate.
Qed.
Lemma table_loop_thin ign evs : forall s m st evs', table_in m st -> thin st evs evs' -> rel (table_loop ign s m evs) (table_loop ign s m evs').
Proof.
  induction evs as [|e evs IH]; intros s m st evs' I0 T; [inversion T; subst; exact I|]. destruct (thin_inv _ _ _ _ T) as [(r' & -> & T' & F)|(t & -> & F & T')].
  - cbn [table_loop]. destruct (table_step ign s m e) as [[(s' & m')|s']| |] eqn:E; cbn [bind]; [|eapply rel_ok, T'|exact I|exact I]. eapply IH; [eapply table_keeps; eauto|exact T'].
  - cbn [table_loop]. rewrite (table_text _ _ _ _ _ I0 F). cbn [bind]. eapply IH; eauto.
Qed.
Lemma table_thin ign e st evs evs' : thin st evs evs' -> rel (read_table ign (e :: evs)) (read_table ign (e :: evs')).
Proof. intros T. unfold read_table. destruct e; try exact I. apply bind_rel_same. intros sh. eapply bind_rel; [eapply table_loop_thin; [exact I|exact T]|]. intros. rel_parts. Qed.
Lemma body_extras_not n : existsb (str_eqb n) (prelude_tags ++ epilogue_tags) = true -> structural n = false.
Proof. intros H. apply existsb_exists in H as (x & X & E). apply str_eqb_eq in E. subst n. cbn in X. repeat destruct X as [<- |X]; try reflexivity. contradiction. Qed.
Lemma body_deaf ign : deaf (body_step ign).
Proof.
  split; [reflexivity|]. intros s e st r r' N T. unfold body_step. destruct (on_tag e) as [((n & a) & b)|] eqn:O; [|rel_parts].
  destruct (negb b && str_eqb n t_valids); [eapply bind_rel; [eapply valids_thin; [exact T|auto|auto]|intros; rel_parts]|].
  destruct (negb b && str_eqb n t_table); [eapply bind_rel; [eapply table_thin, T|intros; rel_parts]|].
  destruct (existsb (str_eqb n) (prelude_tags ++ epilogue_tags)) eqn:E; [|rel_parts].
  eapply bind_rel; [eapply xml_thin; [now apply body_extras_not|eapply on_tag_in; eauto|exact T]|intros; rel_parts].
Qed.
Lemma body_thin ign w st evs evs' : thin st evs evs' -> rel (read_office_body ign w evs) (read_office_body ign w evs').
Proof. intros T. unfold read_office_body. eapply bind_rel; [eapply (reading_deaf _ _ (body_deaf ign) (body_shrinks ign)), T|]. intros. rel_parts. Qed.

(** ** Files *)

Definition meta_in (s : mstate) (st : list str) : Prop :=
  match s with MOutside _ => False | MInside _ => True | MetaModel.MText _ n _ _ | MUser _ n _ _ => In n st /\ structural n = false end.
Lemma field_not f : structural (field_tag f) = false. Proof. destruct f; reflexivity. Qed.
Lemma meta_keeps e s s' st : meta_in s st -> fine e st -> mstep e s = Ok s' -> match s' with MOutside _ => True | _ => meta_in s' (opened e st) end.
Proof.
  intros I0 F H. destruct s; cbn [meta_in mstep] in *; [contradiction| | |].
  - destruct e; cbn [opened]; try (injection H as <-; exact I).
    + destruct (find _ all_fields) as [f|] eqn:E; [injection H as <-; apply find_some in E as (_ & E); apply str_eqb_eq in E; subst n; split; [now left|apply field_not]|].
      repeat match type of H with (if ?b then _ else _) = _ => destruct b eqn:? end; try (apply bind_ok in H as (? & _ & H)); injection H as <-; try exact I.
      split; [now left|]. match goal with K : str_eqb _ MetaModel.t_user = true |- _ => exact (eqb_structural _ _ K eq_refl) end.
    + destruct (str_eqb n MetaModel.t_meta); injection H as <-; exact I.
  - destruct I0 as (I0 & S). destruct e; try (injection H as <-); try (apply bind_ok in H as (? & _ & H); injection H as <-); cbn [meta_in]; try (split; [apply in_opened; [exact I0|exact F|discriminate]|exact S]).
    destruct (str_eqb n0 n) eqn:E; [apply bind_ok in H as (? & _ & H); injection H as <-; exact I|]. injection H as <-. split; [|exact S]. apply in_opened; auto. intros X. injection X as ->. rewrite str_eqb_refl in E. discriminate.
  - destruct I0 as (I0 & S). destruct e; try (injection H as <-); try (apply bind_ok in H as (? & _ & H); injection H as <-); cbn [meta_in]; try (split; [apply in_opened; [exact I0|exact F|discriminate]|exact S]).
    destruct (str_eqb n0 n) eqn:E; [injection H as <-; exact I|]. injection H as <-. split; [|exact S]. apply in_opened; auto. intros X. injection X as ->. rewrite str_eqb_refl in E. discriminate.
Qed.
Lemma meta_thin evs : forall s st evs', meta_in s st -> thin st evs evs' -> rel (meta_loop s evs) (meta_loop s evs').
Proof.
  induction evs as [|e evs IH]; intros s st evs' I0 T; [inversion T; subst; exact I|]. destruct (thin_inv _ _ _ _ T) as [(r' & -> & T' & F)|(t & -> & F & T')].
  - cbn [meta_loop]. destruct (mstep e s) as [s'| |] eqn:E; cbn [bind]; [|exact I|exact I]. pose proof (meta_keeps _ _ _ _ I0 F E) as K. destruct s'; [eapply rel_ok, T'|eapply IH; eauto..].
  - cbn [meta_loop]. assert (E : mstep (EText t) s = Ok s).
    { destruct s; cbn [meta_in mstep] in *; [contradiction|reflexivity| |]; destruct I0 as (I0 & S); rewrite (structural_not_in _ _ I0 S) in F; discriminate. }
    rewrite E. cbn [bind]. destruct s; [contradiction|eapply IH; eauto..].
Qed.
Definition config_in (s : cstate) (st : list str) : Prop :=
  match s with COutside _ => False | CInside _ None _ => True | CInside _ (Some _) _ => In t_item st end.
Lemma config_keeps e s s' st : config_in s st -> fine e st -> cstep e s = Ok s' -> match s' with COutside _ => True | _ => config_in s' (opened e st) end.
Proof.
  intros I0 F H. destruct s as [c|c [p|] stk]; cbn [config_in cstep] in *; [contradiction| |].
  - destruct e; try (injection H as <-); try (apply bind_ok in H as (? & _ & H); injection H as <-); cbn [config_in]; try (apply in_opened; [exact I0|exact F|discriminate]).
    destruct (str_eqb n t_item) eqn:E.
    + apply bind_ok in H as (v & _ & H). destruct stk; [discriminate|]. apply bind_ok in H as (f' & _ & H). injection H as <-. exact I.
    + injection H as <-. apply in_opened; auto. intros X. injection X as ->. rewrite str_eqb_refl in E. discriminate.
  - destruct e; try (injection H as <-; exact I).
    + unfold cstart in H. destruct stk as [|f stk]; [discriminate|]. destruct (child_kind (fr_kind f) n) as [[k|]|] eqn:K.
      * destruct k; destruct (get_attr a_name attrs); try discriminate; injection H as <-; exact I.
      * apply bind_ok in H as (p & _ & H). injection H as <-. cbn [config_in opened]. left.
        destruct (str_eqb n t_item) eqn:E; [now apply str_eqb_eq|]. exfalso. unfold child_kind in K. destruct (fr_kind f) as [[]|]; cbv iota in K; rewrite ?E in K;
          repeat match type of K with (if ?b then _ else _) = _ => destruct b end; discriminate.
      * injection H as <-. exact I.
    + unfold cend in H. destruct stk as [|f stk]; [discriminate|]. destruct (str_eqb n _); [|injection H as <-; exact I]. destruct stk as [|g stk]; [injection H as <-; exact I|].
      apply bind_ok in H as (g' & _ & H). injection H as <-. exact I.
Qed.
Lemma config_thin evs : forall s st evs', config_in s st -> thin st evs evs' -> rel (config_loop s evs) (config_loop s evs').
Proof.
  induction evs as [|e evs IH]; intros s st evs' I0 T; [inversion T; subst; exact I|]. destruct (thin_inv _ _ _ _ T) as [(r' & -> & T' & F)|(t & -> & F & T')].
  - cbn [config_loop]. destruct (cstep e s) as [s'| |] eqn:E; cbn [bind]; [|exact I|exact I]. pose proof (config_keeps _ _ _ _ I0 F E) as K. destruct s'; [eapply rel_ok, T'|eapply IH; eauto].
  - cbn [config_loop]. assert (E : cstep (EText t) s = Ok s).
    { destruct s as [c|c [p|] stk]; cbn [config_in cstep] in *; [contradiction| |reflexivity]. rewrite (structural_not_in _ _ I0 eq_refl) in F. discriminate. }
    rewrite E. cbn [bind]. destruct s; [contradiction|eapply IH; eauto].
Qed.
Ltac file_parts T := repeat match goal with
  | |- rel (if existsb ?f style_sections then _ else _) _ => destruct (existsb f style_sections)
  | |- rel (if ?b then _ else _) _ => destruct b
  | |- rel (bind (on_root _ _ _ _) _) _ => apply bind_rel_same; intro
  | |- rel (bind (reading _ _ scripts_step _ _) _) _ => eapply bind_rel; [eapply (reading_deaf _ _ scripts_deaf scripts_shrinks), T|intros]
  | |- rel (bind (doc_step ?o _ _ _) _) _ => eapply bind_rel; [eapply (proj2 (doc_deaf o)); [eassumption|exact T]|intros]
  | |- rel (bind (meta_loop _ _) _) _ => eapply bind_rel; [eapply meta_thin; [exact I|exact T]|intros]
  | |- rel (bind (config_loop _ _) _) _ => eapply bind_rel; [eapply config_thin; [exact I|exact T]|intros]
  | |- rel (read_office_body _ _ _) _ => eapply body_thin, T
  | |- rel (Ok _) (Ok _) => eapply rel_ok; eassumption
  end.
Lemma content_deaf ign : deaf (content_step ign).
Proof. split; [reflexivity|]. intros s e st r r' N T. unfold content_step. destruct e; file_parts T. Qed.
Lemma fods_deaf ign : deaf (fods_step ign).
Proof. split; [reflexivity|]. intros s e st r r' N T. unfold fods_step. destruct e; file_parts T. Qed.
Lemma fods_only_deaf ign : deaf (fods_only_step ign).
Proof. split; [reflexivity|]. intros s e st r r' N T. unfold fods_only_step. destruct e; file_parts T. Qed.
Lemma styles_file_deaf : deaf styles_file_step.
Proof. split; [reflexivity|]. intros s e st r r' N T. unfold styles_file_step. destruct e; file_parts T. Qed.
Lemma meta_file_deaf : deaf meta_file_step.
Proof. split; [reflexivity|]. intros s e st r r' N T. unfold meta_file_step. destruct e; file_parts T. Qed.
Lemma settings_file_deaf : deaf settings_file_step.
Proof. split; [reflexivity|]. intros s e st r r' N T. unfold settings_file_step. destruct e; file_parts T. Qed.
Lemma file_indented step w t t' : deaf step -> shrinks step -> indented t t' -> read_file step w t = read_file step w t'.
Proof.
  intros D K (evs & evs' & A & A' & T). unfold read_file. rewrite A, A'. cbn [bind]. pose proof (reading_deaf None step D K w _ _ _ T) as R.
  destruct (reading (length evs) None step w evs) as [(p & r)| |], (reading (length evs') None step w evs') as [(p' & r')| |]; cbn in R; try contradiction; [|reflexivity|reflexivity]. destruct R as (-> & _). reflexivity.
Qed.
