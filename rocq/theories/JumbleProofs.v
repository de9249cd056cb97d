(** Lemmas about readers for which the order of attributes does not matter. *)
From Coq Require Import Permutation.
From Verif Require Import Base Lib NumModel XmlModel XmlSpec XmlProofs CellModel CellIoModel DrawModel HeaderModel TableModel CloneModel BookModel ScriptModel ValidModel StyleModel MetaModel ConfigModel WorkModel
  TermModel TermSpec TermProofs PanicSpec IndentSpec ForeignSpec ForeignProofs JumbleSpec JumbleAttrs.

Lemma raw_tag n a a' : looked_at n = None -> jumbled n a a' -> False.
Proof. intros E (ks & K & _). congruence. Qed.
Lemma jumbled_keys n a a' : jumbled n a a' -> keys_alike (keys_of n) a a'.
Proof. intros (ks & K & J). unfold keys_of. rewrite K. exact J. Qed.
(** Two tags with the same name. *)
Inductive twin : event -> event -> Prop :=
| twin_same e : twin e e
| twin_start n a a' : jumbled n a a' -> twin (EStart n a) (EStart n a')
| twin_empty n a a' : jumbled n a a' -> twin (EEmpty n a) (EEmpty n a').
Lemma jumble_inv st e r l : jumble st (e :: r) l ->
  exists e' r', l = e' :: r' /\ twin e e' /\ (forallb structural st = false -> e = e') /\ jumble (opened e st) r r' /\ fine e st.
Proof.
  intros H. inversion H; subst; cbn [opened fine tl]; try (do 2 eexists; split; [reflexivity|]; split; [apply twin_same|]; split; [reflexivity|]; split; [eassumption|]; eauto; fail).
  - do 2 eexists. split; [reflexivity|]. split; [|split; [|split; [eassumption|exact I]]].
    + match goal with A : alike _ _ _ _ |- _ => destruct A as [<- |(_ & J)]; [apply twin_same|now apply twin_start] end.
    + intros S. match goal with A : alike _ _ _ _ |- _ => destruct A as [<- |(K & _)]; [reflexivity|congruence] end.
  - do 2 eexists. split; [reflexivity|]. split; [|split; [|split; [eassumption|assumption]]].
    + match goal with A : alike _ _ _ _ |- _ => destruct A as [<- |(_ & J)]; [apply twin_same|now apply twin_empty] end.
    + intros S. match goal with A : alike _ _ _ _ |- _ => destruct A as [<- |(K & _)]; [reflexivity|congruence] end.
Qed.
Lemma jumble_lock st n e r l : In n st -> structural n = false -> jumble st (e :: r) l ->
  exists r', l = e :: r' /\ jumble (opened e st) r r' /\ (e = EEnd n \/ In n (opened e st)).
Proof.
  intros I S H. destruct (jumble_inv _ _ _ _ H) as (e' & r' & -> & _ & Q & T & F). rewrite <- (Q (structural_not_in _ _ I S)).
  exists r'. split; [reflexivity|]. split; [exact T|]. destruct e; cbn [opened fine] in *; auto; [now right; right|]. destruct F as (st0 & ->). cbn [tl]. destruct I as [-> |I]; auto.
Qed.
Lemma jumble_length st l l' : jumble st l l' -> length l = length l'. Proof. induction 1; cbn [length]; congruence. Qed.

Definition rel {A} (x y : res (A * list event)) : Prop :=
  match x, y with Ok (a, r), Ok (b, r') => a = b /\ exists st, jumble st r r' | Err, Err => True | Panic, Panic => True | _, _ => False end.
Lemma rel_ok {A} (a : A) st r r' : jumble st r r' -> rel (Ok (a, r)) (Ok (a, r')). Proof. intros H. split; eauto. Qed.
Lemma rel_nil {A} (a : A) : rel (Ok (a, [])) (Ok (a, [])). Proof. exact (rel_ok a [] [] [] (jb_nil [])). Qed.
Lemma bind_rel {A B} (x y : res (A * list event)) (k k' : A * list event -> res (B * list event)) : rel x y ->
  (forall a r r' st, jumble st r r' -> rel (k (a, r)) (k' (a, r'))) -> rel (bind x k) (bind y k').
Proof. intros R K. destruct x as [(a & r)| |], y as [(b & r')| |]; cbn in R; try contradiction; [|exact I|exact I]. destruct R as (-> & st & T). cbn [bind]. eapply K, T. Qed.
Lemma bind_rel_same {A B} (x : res A) (k k' : A -> res (B * list event)) : (forall a, rel (k a) (k' a)) -> rel (bind x k) (bind x k').
Proof. intros K. destruct x; cbn [bind]; [apply K|exact I|exact I]. Qed.

Definition deaf {S} (step : S -> event -> list event -> res (S * list event)) : Prop :=
  forall s e e' st r r', twin e e' -> entered e st -> jumble st r r' -> rel (step s e r) (step s e' r').
Lemma reading_jumble {S} stop (step : S -> event -> list event -> res (S * list event)) : deaf step -> shrinks step ->
  forall n m s st evs evs', jumble st evs evs' -> (length evs <= n)%nat -> (length evs' <= m)%nat -> rel (reading n stop step s evs) (reading m stop step s evs').
Proof.
  intros B K. induction n as [|n IH]; intros m s st evs evs' T L M.
  - destruct evs; [|cbn in L; lia]. inversion T; subst. destruct m; apply rel_nil.
  - destruct evs as [|e r]; [inversion T; subst; destruct m; apply rel_nil|]. cbn [length] in L. destruct (jumble_inv _ _ _ _ T) as (e' & r' & -> & W & _ & T' & F).
    cbn [length] in M. destruct m as [|m]; [lia|]. cbn [reading].
    assert (Q : (match e', stop with EEnd t, Some q => str_eqb t q | _, _ => false end) = (match e, stop with EEnd t, Some q => str_eqb t q | _, _ => false end)) by (inversion W; subst; reflexivity).
    rewrite Q. destruct (match e, stop with EEnd t, Some q => str_eqb t q | _, _ => false end); [eapply rel_ok, T'|].
    pose proof (B s e e' _ r r' W (entered_opened _ _ F) T') as R. destruct (step s e r) as [(s1 & r1)| |] eqn:E1, (step s e' r') as [(s2 & r2)| |] eqn:E2; cbn in R; try contradiction; [|exact I|exact I].
    destruct R as (<- & st2 & T2). cbn [bind]. apply K in E1. apply K in E2. apply sfx_length in E1. apply sfx_length in E2. eapply IH; [exact T2|lia|lia].
Qed.
Lemma reading_deaf {S} stop (step : S -> event -> list event -> res (S * list event)) : deaf step -> shrinks step ->
  forall s st evs evs', jumble st evs evs' -> rel (reading (length evs) stop step s evs) (reading (length evs') stop step s evs').
Proof. intros A B s st evs evs' T. eapply reading_jumble; eauto. Qed.

(** ** Trees and text *)

Lemma xml_loop_jumble super : structural super = false -> forall evs stk st evs', In super st -> jumble st evs evs' -> rel (read_xml_loop super stk evs) (read_xml_loop super stk evs').
Proof.
  intros S. induction evs as [|e evs IH]; intros stk st evs' I0 T.
  - inversion T; subst. cbn [read_xml_loop]. destruct stk; [exact I|apply rel_nil].
  - destruct (jumble_lock _ _ _ _ _ I0 S T) as (r' & -> & T' & O). cbn [read_xml_loop].
    assert (C : e <> EEnd super -> forall stk', rel (read_xml_loop super stk' evs) (read_xml_loop super stk' r')) by (intros N stk'; destruct O as [O|O]; [contradiction|eapply IH; eauto]).
    destruct e; try (apply C; discriminate); try (apply bind_rel_same; intros; apply C; discriminate).
    + destruct (str_eqb n super) eqn:E; [destruct stk; [exact I|eapply rel_ok, T']|]. destruct stk; [exact I|]. apply bind_rel_same. intros. apply C. intros X. injection X as ->. rewrite str_eqb_refl in E. discriminate.
    + apply bind_rel_same. intros. apply bind_rel_same. intros. apply C. discriminate.
Qed.
Lemma xml_jumble n a b st evs evs' : structural n = false -> (b = false -> In n st) -> jumble st evs evs' -> rel (read_xml n a b evs) (read_xml n a b evs').
Proof. intros S I0 T. unfold read_xml. destruct b; [eapply rel_ok, T|]. eapply xml_loop_jumble; eauto. Qed.
Lemma para_jumble super a : structural super = false -> forall evs pc stk st evs', In super st -> jumble st evs evs' -> rel (para_loop super a pc stk evs) (para_loop super a pc stk evs').
Proof.
  intros S. induction evs as [|e evs IH]; intros pc stk st evs' I0 T.
  - inversion T; subst. cbn [para_loop]. apply rel_nil.
  - destruct (jumble_lock _ _ _ _ _ I0 S T) as (r' & -> & T' & O). cbn [para_loop].
    destruct (para_step super a pc stk e) as [[(pc' & st')|t']| |] eqn:E; cbn [bind]; [|eapply rel_ok, T'|exact I|exact I].
    apply para_step_end in E. destruct O as [O|O]; [contradiction|]. eapply IH; eauto.
Qed.
Lemma text_jumble n a b st evs evs' : structural n = false -> (b = false -> In n st) -> jumble st evs evs' -> rel (read_text_or_tag n a b evs) (read_text_or_tag n a b evs').
Proof. intros S I0 T. unfold read_text_or_tag. destruct b; [eapply rel_ok, T|]. eapply para_jumble; eauto. Qed.
Lemma message_jumble {T0} (ty : option (str -> res T0)) m0 tag a b st evs evs' : structural tag = false -> (b = false -> In tag st) -> jumble st evs evs' ->
  rel (read_message ty m0 tag a b evs) (read_message ty m0 tag a b evs').
Proof.
  intros S I0 T. unfold read_message. apply bind_rel_same. intros m. eapply bind_rel; [eapply text_jumble; eauto|]. intros t r r' st' T'. destruct t; try exact I; eapply rel_ok, T'.
Qed.
(** A name that is compared: if it is the one, its attributes are looked at or there is nothing to show. *)
Tactic Notation "name_is" hyp(J) constr(n) constr(t) := let E := fresh "E" in destruct (str_eqb n t) eqn:E; [apply str_eqb_eq in E; match type of E with ?x = _ => subst x end; try (exfalso; apply (fun P => raw_tag _ _ _ P J); vm_compute; reflexivity)|].
Tactic Notation "names" hyp(J) constr(n) := repeat match goal with |- context [str_eqb n ?t] => name_is J n t end.
Lemma valid_attrs_alike v a a' : jumbled t_valid a a' -> valid_attrs v a = valid_attrs v a'.
Proof. intros J. rewrite !valid_fold. exact (folda_alike _ _ _ _ valid_steady (jumbled_keys _ _ _ J) v). Qed.
Lemma valids_jumble n : forall m st evs evs' v bk, jumble st evs evs' -> (length evs <= n)%nat -> (length evs' <= m)%nat -> rel (read_valids n evs v bk) (read_valids m evs' v bk).
Proof.
  induction n as [|n IH]; intros m st evs evs' v bk T L M.
  - destruct evs; [|cbn in L; lia]. inversion T; subst. destruct m; apply rel_nil.
  - destruct evs as [|e r]; [inversion T; subst; destruct m; apply rel_nil|]. cbn [length] in L. destruct (jumble_inv _ _ _ _ T) as (e' & r' & -> & W & _ & T' & F).
    cbn [length] in M. destruct m as [|m]; [lia|].
    assert (R : forall v' bk', rel (read_valids n r v' bk') (read_valids m r' v' bk')) by (intros; eapply IH; [exact T'|lia|lia]).
    assert (Q : forall T0 (ty : option (str -> res T0)) m0 t a b (k : message T0 -> validation), structural t = false -> (b = false -> In t (opened e st)) ->
      rel (let* (x, r1) := read_message ty m0 t a b r in read_valids n r1 (k x) bk) (let* (x, r1) := read_message ty m0 t a b r' in read_valids m r1 (k x) bk)).
    { intros T0 ty m0 t a b k S I0. pose proof (message_jumble ty m0 t a b _ _ _ S I0 T') as X.
      destruct (read_message ty m0 t a b r) as [(x & r1)| |] eqn:E1, (read_message ty m0 t a b r') as [(x' & r2)| |] eqn:E2; cbn in X; try contradiction; [|exact I|exact I].
      destruct X as (<- & st2 & T2). cbn [bind]. apply message_sfx in E1. apply message_sfx in E2. apply sfx_length in E1. apply sfx_length in E2. eapply IH; [exact T2|lia|lia]. }
    destruct W as [e|t a a' J|t a a' J].
    + destruct e; cbn [read_valids opened] in *; try (apply R).
      * destruct (str_eqb n0 t_valid); [apply bind_rel_same; intros w; apply bind_rel_same; intros (b1 & n1); apply R|].
        destruct (str_eqb n0 t_err) eqn:E; [apply Q; [exact (eqb_structural _ _ E eq_refl)|now left]|].
        destruct (str_eqb n0 t_help) eqn:E'; [apply Q; [exact (eqb_structural _ _ E' eq_refl)|now left]|]. apply R.
      * destruct (str_eqb n0 t_err) eqn:E; [apply Q; [exact (eqb_structural _ _ E eq_refl)|discriminate]|].
        destruct (str_eqb n0 t_help) eqn:E'; [apply Q; [exact (eqb_structural _ _ E' eq_refl)|discriminate]|]. apply R.
      * destruct (str_eqb n0 t_valid); [apply bind_rel_same; intros (b1 & n1); apply R|]. destruct (str_eqb n0 t_valids); [eapply rel_ok, T'|]. apply R.
    + cbn [read_valids]. name_is J t t_valid; [rewrite (valid_attrs_alike v a a' J); apply bind_rel_same; intros w; apply bind_rel_same; intros (b1 & n1); apply R|]. name_is J t t_err. name_is J t t_help. apply R.
    + cbn [read_valids]. name_is J t t_err. name_is J t t_help. apply R.
Qed.

(** ** Styles *)

Ltac rel_parts := repeat match goal with
  | |- rel (let (_, _) := ?p in _) _ => destruct p
  | |- rel (if ?b then _ else _) _ => destruct b
  | |- rel (match ?o with Some _ => _ | None => _ end) _ => destruct o
  | |- rel (let* _ := ?x in _) (let* _ := ?x in _) => apply bind_rel_same; intro
  | |- rel (Ok _) (Ok _) => eapply rel_ok; eassumption
  | |- rel Err Err => exact I
  | p : (_ * _)%type |- _ => destruct p
  end.
Lemma part_raw n ty : part_of n = Some ty -> looked_at n = None.
Proof.
  unfold part_of. destruct (str_eqb n (lit "loext:text")) eqn:E1; [intros _; apply str_eqb_eq in E1; subst; vm_compute; reflexivity|].
  destruct (str_eqb n (lit "loext:fill-character")) eqn:E2; [intros _; apply str_eqb_eq in E2; subst; vm_compute; reflexivity|].
  intros H. apply find_some in H as (_ & H). apply str_eqb_eq in H. subst n. destruct ty; vm_compute; reflexivity.
Qed.
Lemma format_raw n f : format_of n = Some f -> looked_at n = None.
Proof. unfold format_of. intros H. apply find_some in H as (I0 & H). apply str_eqb_eq in H. subst n. cbn in I0. repeat destruct I0 as [<- |I0]; try contradiction; vm_compute; reflexivity. Qed.
Lemma exists_raw n l : existsb (str_eqb n) l = true -> forallb (fun t => match looked_at t with None => true | _ => false end) l = true -> looked_at n = None.
Proof. intros H K. apply existsb_exists in H as (x & X & E). apply str_eqb_eq in E. subst n. rewrite forallb_forall in K. specialize (K x X). destruct (looked_at x); [discriminate|reflexivity]. Qed.

Lemma font_deaf : deaf font_step.
Proof.
  intros s e e' st r r' W _ T. unfold font_step. destruct W as [e|n a a' J|n a a' J]; [destruct (on_tag e) as [((n & a) & b)|]; rel_parts| |]; cbn [on_tag]; names J n; rel_parts.
Qed.
Lemma fonts_jumble o b st evs evs' : jumble st evs evs' -> rel (read_fonts o b evs) (read_fonts o b evs').
Proof. intros T. unfold read_fonts. eapply bind_rel; [eapply (reading_deaf _ _ font_deaf font_shrinks); exact T|]. intros. rel_parts. Qed.
Lemma smap_alike s a a' : jumbled t_map a a' -> read_smap s a = read_smap s a'.
Proof. intros J. rewrite !smap_fold. exact (folda_alike _ _ _ _ smap_steady (jumbled_keys _ _ _ J) s). Qed.
Lemma vmap_alike a a' : jumbled t_map a a' -> read_vmap a = read_vmap a'.
Proof. intros J. exact (sure_alike _ _ _ _ _ vmap_steady (jumbled_keys _ _ _ J)). Qed.
Lemma style_deaf f : deaf (style_step f).
Proof.
  intros s e e' st r r' W _ T. unfold style_step. destruct W as [e|n a a' J|n a a' J]; [destruct (on_tag e) as [((n & a) & b)|]; [|rel_parts]; destruct f; rel_parts| |];
    cbn [on_tag]; destruct f; names J n; try rewrite (smap_alike _ _ _ J); rel_parts.
Qed.
Lemma style_jumble f o u tag a b bk st evs evs' : jumble st evs evs' -> rel (read_style f o u tag a b bk evs) (read_style f o u tag a b bk evs').
Proof.
  intros T. unfold read_style. destruct (copy_style_attr a) as (nm & at'). destruct b; [rel_parts|].
  eapply bind_rel; [eapply (reading_deaf _ _ (style_deaf f) (style_shrinks f)); exact T|]. intros p r r' st' T'. rel_parts.
Qed.
Lemma style_style_jumble todo : forall o u tag a b bk st evs evs', jumble st evs evs' -> rel (read_style_style todo o u tag a b bk evs) (read_style_style todo o u tag a b bk evs').
Proof.
  induction todo as [|(k & v) todo IH]; intros o u tag a b bk st evs evs' T; cbn [read_style_style]; [rel_parts|]. destruct (str_eqb k k_family); [|eapply IH; eassumption].
  destruct (family_of (raw v)); [|exact I]. eapply bind_rel; [eapply style_jumble; eassumption|]. intros. eapply IH; eassumption.
Qed.
Lemma reading_lock {S} tag (g : S -> event -> res S) : structural tag = false -> forall n m s st evs evs', In tag st -> jumble st evs evs' -> (length evs <= n)%nat -> (length evs' <= m)%nat ->
  rel (reading n (Some tag) (fun s e r => let* s' := g s e in Ok (s', r)) s evs) (reading m (Some tag) (fun s e r => let* s' := g s e in Ok (s', r)) s evs').
Proof.
  intros K. induction n as [|n IH]; intros m s st evs evs' I0 T L M.
  - destruct evs; [|cbn in L; lia]. inversion T; subst. destruct m; apply rel_nil.
  - destruct evs as [|e r]; [inversion T; subst; destruct m; apply rel_nil|]. cbn [length] in L.
    destruct (jumble_lock _ _ _ _ _ I0 K T) as (r' & -> & T' & O). cbn [length] in M. destruct m as [|m]; [lia|]. cbn [reading].
    destruct (match e with EEnd t => str_eqb t tag | _ => false end) eqn:E; [eapply rel_ok, T'|].
    destruct O as [-> |O]; [rewrite str_eqb_refl in E; discriminate|]. destruct (g s e) as [s'| |]; cbn [bind]; [|exact I|exact I]. eapply IH; [exact O|exact T'|lia|lia].
Qed.
Lemma part_jumble ty tag a b st evs evs' : structural tag = false -> (b = false -> In tag st) -> jumble st evs evs' -> rel (read_part ty tag a b evs) (read_part ty tag a b evs').
Proof.
  intros S I0 T. unfold read_part. destruct b; [rel_parts|]. cbv zeta. rewrite !(reading_ext _ _ _ (part_fun_step ty)). eapply bind_rel; [eapply (reading_lock tag (part_fun ty) S); eauto|]. intros. rel_parts.
Qed.
Lemma format_deaf : deaf format_step.
Proof.
  intros s e e' st r r' W N T. unfold format_step. destruct W as [e|n a a' J|n a a' J].
  - destruct (on_tag e) as [((n & a) & b)|] eqn:O; [|rel_parts]. destruct (part_of n) as [ty|] eqn:P.
    + eapply bind_rel; [eapply part_jumble; [eapply part_structural, P|eapply on_tag_in; eauto|exact T]|]. intros. rel_parts.
    + destruct s. rel_parts.
  - cbn [on_tag]. destruct (part_of n) as [ty|] eqn:P; [destruct (raw_tag _ _ _ (part_raw _ _ P) J)|]. destruct s. names J n; try rewrite (vmap_alike _ _ J); rel_parts.
  - cbn [on_tag]. destruct (part_of n) as [ty|] eqn:P; [destruct (raw_tag _ _ _ (part_raw _ _ P) J)|]. destruct s. names J n; try rewrite (vmap_alike _ _ J); rel_parts.
Qed.
Lemma format_jumble f o u tag a bk st evs evs' : jumble st evs evs' -> rel (read_format f o u tag a bk evs) (read_format f o u tag a bk evs').
Proof.
  intros T. unfold read_format. destruct (copy_style_attr a). eapply bind_rel; [eapply (reading_deaf _ _ format_deaf format_shrinks); exact T|]. intros. rel_parts.
Qed.
Lemma page_deaf : deaf page_step.
Proof.
  intros (([us p h f] & hd) & ft) e e' st r r' W _ T. unfold page_step. destruct W as [e|n a a' J|n a a' J]; [destruct e; rel_parts| |]; names J n; rel_parts.
Qed.
Lemma page_jumble a a' bk st evs evs' : a = a' \/ jumbled t_page a a' -> jumble st evs evs' -> rel (read_page a bk evs) (read_page a' bk evs').
Proof.
  intros A T. unfold read_page. assert (E : forall s, fold_left page_attr a s = fold_left page_attr a' s) by (intros s; destruct A as [-> |J]; [reflexivity|exact (sure_alike _ _ _ _ _ page_steady (jumbled_keys _ _ _ J))]).
  rewrite E. destruct (fold_left page_attr a' _). eapply bind_rel; [eapply (reading_deaf _ _ page_deaf page_shrinks); exact T|]. intros q r r' st' T'. apply bind_rel_same. intros. rel_parts.
Qed.
Lemma hf_deaf : deaf hf_step.
Proof.
  intros s e e' st r r' W N T. unfold hf_step. destruct W as [e|n a a' J|n a a' J].
  - destruct (on_tag e) as [((n & a) & b)|] eqn:O; [|rel_parts]. destruct s as ([d le ce ri co] & tc).
    pose proof (on_tag_in _ _ _ _ _ O N) as I0.
    destruct (str_eqb n t_left) eqn:E1; [eapply bind_rel; [eapply xml_jumble; [exact (eqb_structural _ _ E1 eq_refl)|exact I0|exact T]|intros; rel_parts]|].
    destruct (str_eqb n t_center) eqn:E2; [eapply bind_rel; [eapply xml_jumble; [exact (eqb_structural _ _ E2 eq_refl)|exact I0|exact T]|intros; rel_parts]|].
    destruct (str_eqb n t_right) eqn:E3; [eapply bind_rel; [eapply xml_jumble; [exact (eqb_structural _ _ E3 eq_refl)|exact I0|exact T]|intros; rel_parts]|].
    destruct (str_eqb n t_p || str_eqb n t_h) eqn:E4; [|rel_parts]. apply orb_true_iff in E4.
    eapply bind_rel; [eapply text_jumble; [destruct E4 as [E4|E4]; exact (eqb_structural _ _ E4 eq_refl)|exact I0|exact T]|intros; rel_parts].
  - cbn [on_tag]. destruct s as ([d le ce ri co] & tc). names J n. cbn [orb]. rel_parts.
  - cbn [on_tag]. destruct s as ([d le ce ri co] & tc). names J n. cbn [orb]. rel_parts.
Qed.
Lemma hslot_keys n h : hslot_of n = Some h -> keys_of n = [lit "style:display"].
Proof. unfold hslot_of. intros H. apply find_some in H as (_ & H). apply str_eqb_eq in H. subst n. destruct h; vm_compute; reflexivity. Qed.
Lemma hf_alike n x h a a' : hslot_of n = Some h -> jumbled n a a' -> hf_attrs x a = hf_attrs x a'.
Proof. intros H J. apply jumbled_keys in J. rewrite (hslot_keys n h H) in J. rewrite !hf_fold. exact (folda_alike _ _ _ _ hf_steady J x). Qed.
Lemma hf_jumble tag a a' st evs evs' : hf_attrs hf_new a = hf_attrs hf_new a' -> jumble st evs evs' -> rel (read_hf tag a evs) (read_hf tag a' evs').
Proof.
  intros A T. unfold read_hf. rewrite A. apply bind_rel_same. intros h. eapply bind_rel; [eapply (reading_deaf _ _ hf_deaf hf_shrinks); exact T|]. intros p r r' st' T'. destruct (snd p) as ([d le ce ri co] & tc). rel_parts.
Qed.
Lemma master_deaf : deaf master_step.
Proof.
  intros s e e' st r r' W _ T. unfold master_step. destruct W as [e|n a a' J|n a a' J]; [destruct e; try (rel_parts; fail)| |rel_parts];
    (destruct (hslot_of n) eqn:H; [|rel_parts]); (eapply bind_rel; [eapply hf_jumble; [first [reflexivity|exact (hf_alike _ _ _ _ _ H J)]|exact T]|]); intros; rel_parts.
Qed.
Lemma master_jumble a a' bk st evs evs' : a = a' \/ jumbled t_master a a' -> jumble st evs evs' -> rel (read_master a bk evs) (read_master a' bk evs').
Proof.
  intros A T. unfold read_master. assert (E : forall s, fold_left master_attr a s = fold_left master_attr a' s) by (intros s; destruct A as [-> |J]; [reflexivity|exact (sure_alike _ _ _ _ _ master_steady (jumbled_keys _ _ _ J))]).
  rewrite E. destruct (fold_left master_attr a' _). eapply bind_rel; [eapply (reading_deaf _ _ master_deaf master_shrinks); exact T|]. intros q r r' st' T'. apply bind_rel_same. intros. rel_parts.
Qed.
Lemma styles_deaf o : deaf (styles_step o).
Proof.
  intros s e e' st r r' W _ T. unfold styles_step. destruct W as [e|n a a' J|n a a' J]; cbn [on_tag].
  - destruct (on_tag e) as [((n & a) & b)|]; [|rel_parts].
    destruct (str_eqb n t_style); [eapply style_style_jumble, T|]. destruct (str_eqb n t_default); [eapply style_style_jumble, T|]. destruct (format_of n); [eapply format_jumble, T|rel_parts].
  - names J n. destruct (format_of n) eqn:E3; [destruct (raw_tag _ _ _ (format_raw _ _ E3) J)|rel_parts].
  - names J n. destruct (format_of n) eqn:E3; [destruct (raw_tag _ _ _ (format_raw _ _ E3) J)|rel_parts].
Qed.
Lemma automatic_deaf o : deaf (automatic_step o).
Proof.
  intros s e e' st r r' W _ T. unfold automatic_step. destruct W as [e|n a a' J|n a a' J]; cbn [on_tag].
  - destruct (on_tag e) as [((n & a) & b)|]; [|rel_parts].
    destruct (str_eqb n t_style); [eapply style_style_jumble, T|]. destruct (str_eqb n t_page); [eapply page_jumble; [now left|exact T]|]. destruct (format_of n); [eapply format_jumble, T|rel_parts].
  - name_is J n t_style. name_is J n t_page; [eapply page_jumble; [now right|exact T]|]. destruct (format_of n) eqn:E3; [destruct (raw_tag _ _ _ (format_raw _ _ E3) J)|rel_parts].
  - name_is J n t_style. name_is J n t_page; [eapply page_jumble; [now right|exact T]|]. destruct (format_of n) eqn:E3; [destruct (raw_tag _ _ _ (format_raw _ _ E3) J)|rel_parts].
Qed.
Lemma masters_deaf : deaf masters_step.
Proof.
  intros s e e' st r r' W _ T. unfold masters_step. destruct W as [e|n a a' J|n a a' J]; cbn [on_tag]; [destruct (on_tag e) as [((n & a) & b)|]; [|rel_parts]; destruct (str_eqb n t_master); [eapply master_jumble; [now left|exact T]|rel_parts]| |];
    (name_is J n t_master; [eapply master_jumble; [now right|exact T]|rel_parts]).
Qed.
Lemma doc_deaf o : deaf (doc_step o).
Proof.
  assert (X : forall s n st r r', jumble st r r' -> forall a a', rel (doc_step o s (EStart n a) r) (doc_step o s (EStart n a') r')).
  { intros s n st r r' T a a'. unfold doc_step. destruct (str_eqb n t_fonts); [eapply fonts_jumble, T|].
    destruct (str_eqb n t_office_styles); [eapply bind_rel; [eapply (reading_deaf _ _ (styles_deaf o) (styles_shrinks o)); exact T|intros; rel_parts]|].
    destruct (str_eqb n t_automatic); [eapply bind_rel; [eapply (reading_deaf _ _ (automatic_deaf o) (automatic_shrinks o)); exact T|intros; rel_parts]|].
    destruct (str_eqb n t_masters); [eapply bind_rel; [eapply (reading_deaf _ _ masters_deaf masters_shrinks); exact T|intros; rel_parts]|rel_parts]. }
  intros s e e' st r r' W _ T. destruct W as [e|n a a' J|n a a' J]; [destruct e; try (eapply X, T); unfold doc_step; rel_parts|eapply X, T|unfold doc_step; rel_parts].
Qed.
Lemma listener_alike a a' : jumbled t_listener a a' -> forall s, listener_attrs a s = listener_attrs a' s.
Proof. intros J s. rewrite !listener_fold. exact (folda_alike _ _ _ _ listener_steady (jumbled_keys _ _ _ J) s). Qed.
Lemma scripts_deaf : deaf scripts_step.
Proof.
  intros s e e' st r r' W N T. unfold scripts_step. destruct W as [e|n a a' J|n a a' J]; cbn [on_tag].
  - destruct (on_tag e) as [((n & a) & b)|] eqn:O; [|rel_parts].
    destruct (str_eqb n t_script) eqn:E; [|rel_parts]. apply str_eqb_eq in E. subst n. eapply bind_rel; [eapply (xml_jumble t_script a false st); [reflexivity| |exact T]|intros; rel_parts].
    intros _. destruct e; cbn in O; try discriminate; injection O as -> -> <-; [exact N|]. cbn in N. contradiction.
  - name_is J n t_script. name_is J n t_listener; [rewrite (listener_alike _ _ J)|]; rel_parts.
  - name_is J n t_script. name_is J n t_listener; [rewrite (listener_alike _ _ J)|]; rel_parts.
Qed.
