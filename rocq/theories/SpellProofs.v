(** Lemmas about readers that treat both spellings of an empty element alike. *)
From Verif Require Import Base Lib NumModel XmlModel XmlSpec XmlProofs CellModel CellIoModel DrawModel HeaderModel TableModel CloneModel BookModel ScriptModel ValidModel StyleModel MetaModel ConfigModel WorkModel TermModel TermSpec TermProofs SpellSpec.

(** [chain ts st]: the elements [ts] are open, in this order, possibly with others in between. *)
Fixpoint chain (ts st : list str) : Prop := match ts with [] => True | t :: ts' => exists u v, st = u ++ t :: v /\ chain ts' v end.
Lemma chain_push ts x st : chain ts st -> chain ts (x :: st).
Proof. destruct ts; cbn [chain]; [auto|]. intros (u & v & -> & C). exists (x :: u), v. auto. Qed.
Lemma chain_app ts u st : chain ts st -> chain ts (u ++ st). Proof. induction u; cbn [app]; auto using chain_push. Qed.
Lemma chain_weak t ts st : chain (t :: ts) st -> chain ts st. Proof. intros (u & v & -> & C). apply chain_app, chain_push, C. Qed.
Lemma chain_pop t ts h st : chain (t :: ts) (h :: st) -> h <> t -> chain (t :: ts) st.
Proof. intros (u & v & E & C) N. destruct u as [|x u]; cbn [app] in E; injection E as -> E; [contradiction|]. exists u, v. auto. Qed.
Lemma chain_close t ts h st : chain (t :: ts) (h :: st) -> chain ts st.
Proof. intros (u & v & E & C). destruct u as [|x u]; cbn [app] in E; injection E as -> E; [now subst|]. subst st. apply chain_app, chain_push, C. Qed.
Lemma chain_in ts : forall st t, chain ts st -> In t ts -> In t st.
Proof.
  induction ts as [|x ts IH]; intros st t C I0; [contradiction|]. destruct C as (u & v & -> & C). apply in_or_app. right. destruct I0 as [-> |I0]; [now left|]. right. eapply IH; eauto.
Qed.
Lemma chain_open n ts st : chain ts st -> chain (n :: ts) (n :: st). Proof. intros C. exists [], st. auto. Qed.

Definition opened (e : event) (st : list str) : list str := match e with EStart n _ => n :: st | EEnd _ => tl st | _ => st end.
Definition fine (e : event) (st : list str) : Prop :=
  match e with EStart _ a => NoDup (map fst a) | EEnd n => exists st0, st = n :: st0 | EEmpty n a => NoDup (map fst a) /\ swallows n = false | _ => True end.
Lemma spelt_inv st e r l : spelt st (e :: r) l ->
  (exists r', l = e :: r' /\ spelt (opened e st) r r' /\ fine e st)
  \/ (exists n a r', e = EEmpty n a /\ l = EStart n a :: EEnd n :: r' /\ NoDup (map fst a) /\ either n = true /\ ~ In n st /\ spelt st r r').
Proof. intros H. inversion H; subst; cbn [opened fine]; try (left; eexists; repeat split; eauto; fail). right. do 3 eexists. repeat split; eauto. Qed.
Lemma nil_inv st l : spelt st [] l -> l = []. Proof. inversion 1. reflexivity. Qed.
(** What is known when an event has been taken: the elements [ts] are open around it. *)
Definition entry (ts : list str) (e : event) (st : list str) : Prop :=
  match e with
  | EStart n a => NoDup (map fst a) /\ exists st0, st = n :: st0 /\ chain ts st0
  | EEmpty n a => NoDup (map fst a) /\ swallows n = false /\ chain ts st
  | _ => chain ts st
  end.
Lemma entry_chain ts e st : entry ts e st -> chain ts st.
Proof. destruct e; cbn [entry]; auto; [intros (_ & st0 & -> & C); now apply chain_push|tauto]. Qed.
Lemma entry_start ts e st n a : entry ts e st -> on_tag e = Some (n, a, false) -> chain (n :: ts) st.
Proof. destruct e; cbn; try discriminate. intros (_ & st0 & -> & C) H. injection H as -> ->. now apply chain_open. Qed.
Lemma entry_empty ts e st n a : entry ts e st -> on_tag e = Some (n, a, true) -> swallows n = false.
Proof. destruct e; cbn; try discriminate. intros (_ & S & _) H. now injection H as -> ->. Qed.
Lemma entry_nodup ts e st n a b : entry ts e st -> on_tag e = Some (n, a, b) -> NoDup (map fst a).
Proof. destruct e; cbn; try discriminate; intros (N & _) H; now injection H as -> -> _. Qed.
Lemma entry_of t ts e st : chain (t :: ts) st -> fine e st -> e <> EEnd t -> entry (t :: ts) e (opened e st).
Proof.
  intros C F N. destruct e; cbn [entry opened fine] in *; auto; [split; eauto|tauto|]. destruct F as (st0 & ->). cbn [tl]. eapply chain_pop; [exact C|congruence].
Qed.
Lemma entry_any e st : fine e st -> entry [] e (opened e st).
Proof. destruct e; cbn [entry opened fine chain]; auto; [intros; split; eauto|tauto]. Qed.

Definition rel (ts : list str) {A} (x y : res (A * list event)) : Prop :=
  match x, y with Ok (a, r), Ok (b, r') => a = b /\ exists st, chain ts st /\ spelt st r r' | Err, Err => True | Panic, Panic => True | _, _ => False end.
Lemma rel_ok ts {A} (a : A) st r r' : chain ts st -> spelt st r r' -> rel ts (Ok (a, r)) (Ok (a, r')). Proof. intros C H. split; eauto. Qed.
Lemma bind_rel ts ts' {A B} (x y : res (A * list event)) (k k' : A * list event -> res (B * list event)) : rel ts' x y ->
  (forall a r r' st, chain ts' st -> spelt st r r' -> rel ts (k (a, r)) (k' (a, r'))) -> rel ts (bind x k) (bind y k').
Proof. intros R K. destruct x as [(a & r)| |], y as [(b & r')| |]; cbn in R; try contradiction; [|exact I|exact I]. destruct R as (-> & st & C & T). cbn [bind]. eapply K; eauto. Qed.
Lemma bind_rel_same ts {A B} (x : res A) (k k' : A -> res (B * list event)) : (forall a, rel ts (k a) (k' a)) -> rel ts (bind x k) (bind x k').
Proof. intros K. destruct x; cbn [bind]; [apply K|exact I|exact I]. Qed.

Definition calm {S} (step : S -> event -> list event -> res (S * list event)) : Prop :=
  forall ts s e st r r', entry ts e st -> spelt st r r' -> rel ts (step s e r) (step s e r').
Definition pairs {S} (step : S -> event -> list event -> res (S * list event)) : Prop :=
  forall s n a, either n = true -> NoDup (map fst a) -> exists o : res S,
    (forall p, step s (EEmpty n a) p = let* s' := o in Ok (s', p))
    /\ ((forall q, step s (EStart n a) (EEnd n :: q) = let* s' := o in Ok (s', q))
        \/ ((forall q, step s (EStart n a) q = let* s' := o in Ok (s', q)) /\ forall s' q, step s' (EEnd n) q = Ok (s', q))).
Definition around (stop : option str) (ts : list str) : list str := match stop with Some t => t :: ts | None => ts end.
Lemma reading_spelt {S} stop (step : S -> event -> list event -> res (S * list event)) ts : calm step -> pairs step -> shrinks step -> (stop = None -> ts = []) ->
  forall n m s st evs evs', chain (around stop ts) st -> spelt st evs evs' -> (length evs <= n)%nat -> (length evs' <= m)%nat -> rel ts (reading n stop step s evs) (reading m stop step s evs').
Proof.
  intros A P K Z. assert (W : forall st, chain (around stop ts) st -> chain ts st) by (intros st C; destruct stop; [eapply chain_weak, C|exact C]).
  induction n as [|n IH]; intros m s st evs evs' C T L M.
  - destruct evs; [|cbn in L; lia]. rewrite (nil_inv _ _ T). destruct m; (eapply rel_ok; [apply W, C|constructor]).
  - destruct evs as [|e r]; [rewrite (nil_inv _ _ T); destruct m; (eapply rel_ok; [apply W, C|constructor])|]. cbn [length] in L.
    destruct (spelt_inv _ _ _ _ T) as [(r' & -> & T' & F)|(t & a & r' & -> & -> & D & E & N & T')].
    + cbn [length] in M. destruct m as [|m]; [lia|]. cbn [reading]. destruct (match e, stop with EEnd t, Some q => str_eqb t q | _, _ => false end) eqn:Q.
      * destruct e as [| |t| | |]; try discriminate. destruct stop as [q|]; [|discriminate]. apply str_eqb_eq in Q. subst q. destruct F as (st0 & ->). cbn [opened tl] in T'. eapply rel_ok; [eapply chain_close, C|exact T'].
      * assert (G : entry (around stop ts) e (opened e st)).
        { destruct stop as [q|]; [|rewrite (Z eq_refl); now apply entry_any]. apply entry_of; auto. intros ->. rewrite str_eqb_refl in Q. discriminate. }
        pose proof (A _ s e _ r r' G T') as R. destruct (step s e r) as [(s1 & r1)| |] eqn:E1, (step s e r') as [(s2 & r2)| |] eqn:E2; cbn in R; try contradiction; [|exact I|exact I].
        destruct R as (<- & st2 & C2 & T2). cbn [bind]. apply K in E1. apply K in E2. apply sfx_length in E1. apply sfx_length in E2. eapply IH; [exact C2|exact T2|lia|lia].
    + cbn [length] in M. destruct m as [|m]; [lia|]. destruct m as [|m]; [lia|]. destruct (P s t a E D) as (o & O1 & O2).
      assert (Q : match stop with Some q => str_eqb t q | None => false end = false).
      { destruct stop as [q|]; [|reflexivity]. destruct (str_eqb t q) eqn:Q; [|reflexivity]. apply str_eqb_eq in Q. subst q. exfalso. apply N. eapply chain_in; [exact C|now left]. }
      cbn [reading]. rewrite O1. destruct O2 as [O2|(O2 & O3)]; rewrite O2.
      * destruct o as [s'| |]; cbn [bind]; [|exact I|exact I]. eapply (IH (Datatypes.S m)); [exact C|exact T'|lia|lia].
      * destruct o as [s'| |]; cbn [bind]; [|exact I|exact I]. rewrite Q. rewrite O3. cbn [bind]. eapply IH; [exact C|exact T'|lia|lia].
Qed.
Lemma reading_some {S} tag (step : S -> event -> list event -> res (S * list event)) ts : calm step -> pairs step -> shrinks step ->
  forall s st evs evs', chain (tag :: ts) st -> spelt st evs evs' -> rel ts (reading (length evs) (Some tag) step s evs) (reading (length evs') (Some tag) step s evs').
Proof. intros A P K s st evs evs' C T. eapply reading_spelt; eauto. discriminate. Qed.

Lemma eother n t : either n = true -> either t = false -> str_eqb n t = false.
Proof. intros A B. destruct (str_eqb n t) eqn:E; [|reflexivity]. apply str_eqb_eq in E. congruence. Qed.
Lemma sother n t : swallows n = false -> swallows t = true -> str_eqb n t = false.
Proof. intros A B. destruct (str_eqb n t) eqn:E; [|reflexivity]. apply str_eqb_eq in E. congruence. Qed.
(** Steps that look at tags only, whether empty or not, and leave the rest to the loop. *)
Lemma pairs_fun {S} (step : S -> event -> list event -> res (S * list event)) (g : S -> str -> attrs -> res S) :
  (forall s n a r, either n = true -> step s (EStart n a) r = let* s' := g s n a in Ok (s', r)) ->
  (forall s n a r, either n = true -> step s (EEmpty n a) r = let* s' := g s n a in Ok (s', r)) ->
  (forall s n r, either n = true -> step s (EEnd n) r = Ok (s, r)) -> pairs step.
Proof. intros A B C s n a E D. exists (g s n a). split; [intros; now apply B|]. right. split; intros; [now apply A|now apply C]. Qed.
Lemma bind_assoc {A B C} (x : res A) (f : A -> res B) (g : B -> res C) : bind (bind x f) g = bind x (fun a => bind (f a) g). Proof. destruct x; reflexivity. Qed.

(** ** Trees and text *)

Lemma xml_loop_spelt super ts : forall evs stk st evs', chain (super :: ts) st -> spelt st evs evs' -> rel ts (read_xml_loop super stk evs) (read_xml_loop super stk evs').
Proof.
  induction evs as [|e evs IH]; intros stk st evs' C T.
  - rewrite (nil_inv _ _ T). cbn [read_xml_loop]. destruct stk; [exact I|]. eapply rel_ok; [eapply chain_weak, C|constructor].
  - destruct (spelt_inv _ _ _ _ T) as [(r' & -> & T' & F)|(t & a & r' & -> & -> & D & E & N & T')].
    + cbn [read_xml_loop].
      assert (G : e <> EEnd super -> forall stk', rel ts (read_xml_loop super stk' evs) (read_xml_loop super stk' r')).
      { intros N stk'. eapply IH; [|exact T']. eapply entry_chain, entry_of; eauto. }
      destruct e; try (apply G; discriminate); try (apply bind_rel_same; intros; apply G; discriminate).
      * destruct (str_eqb n super) eqn:E.
        -- destruct stk; [exact I|]. destruct F as (st0 & ->). eapply rel_ok; [eapply chain_close, C|exact T'].
        -- destruct stk; [exact I|]. apply bind_rel_same. intros. apply G. intros X. injection X as ->. rewrite str_eqb_refl in E. discriminate.
      * apply bind_rel_same. intros. apply bind_rel_same. intros. apply G. discriminate.
    + assert (Q : str_eqb t super = false). { destruct (str_eqb t super) eqn:Q; [|reflexivity]. apply str_eqb_eq in Q. subst t. exfalso. apply N. eapply chain_in; [exact C|now left]. }
      cbn [read_xml_loop]. rewrite Q. cbn [close_frame]. apply bind_rel_same. intros. eapply IH; eauto.
Qed.
Lemma xml_spelt n a b ts st evs evs' : (b = true -> chain ts st) -> (b = false -> chain (n :: ts) st) -> spelt st evs evs' -> rel ts (read_xml n a b evs) (read_xml n a b evs').
Proof. intros C C' T. unfold read_xml. destruct b; [eapply rel_ok; eauto|]. eapply xml_loop_spelt; eauto. Qed.
Lemma xml_short n a q : read_xml n a false (EEnd n :: q) = Ok (XTag n a [], q).
Proof. cbn [read_xml read_xml_loop]. now rewrite str_eqb_refl. Qed.
(** A step of a machine, on the two spellings. *)
Definition two {X Y} (step : X -> event -> res (X + Y)) (n : str) (a : attrs) (x : X) : Prop :=
  exists o o1 : res X, step x (EEmpty n a) = (let* p := o in Ok (inl p)) /\ step x (EStart n a) = (let* p := o1 in Ok (inl p))
    /\ (let* p := o1 in step p (EEnd n)) = (let* p := o in Ok (inl p)).
Lemma para_two super b n a : str_eqb n super = false -> forall p, two (fun p => para_step super b (fst p) (snd p)) n a p.
Proof.
  intros N (pc & stk). unfold two. cbn [fst snd para_step]. exists (Ok (PXml (frame_add (XTag n a []) (p_parent super b pc)), stk)), (Ok (PXml (n, a, []), p_parent super b pc :: stk)).
  split; [reflexivity|]. split; [reflexivity|]. cbn [bind fst snd]. now rewrite N.
Qed.
Lemma tree_two super n a : str_eqb n super = false -> forall stk, two (tree_step super) n a stk.
Proof.
  intros N stk. exists (top_add (XTag n a []) stk), (Ok ((n, a, []) :: stk)). split; [reflexivity|]. split; [reflexivity|]. cbn [bind tree_step close_frame]. now rewrite N.
Qed.
Lemma rtext_two super n a : forall t, two (rtext_step super) n a t.
Proof. intros t. exists Err, Err. repeat split; reflexivity. Qed.
Lemma para_step_end super a pc st e x : para_step super a pc st e = Ok (inl x) -> e <> EEnd super.
Proof. intros H ->. cbn [para_step] in H. rewrite str_eqb_refl in H. destruct st; discriminate. Qed.
Lemma para_step_done super a pc st e x : para_step super a pc st e = Ok (inr x) -> e = EEnd super.
Proof.
  destruct e; cbn [para_step]; intros H; try discriminate; try (apply bind_ok in H as (? & _ & H); discriminate). destruct (str_eqb n super) eqn:E; [apply str_eqb_eq in E; now subst|].
  destruct pc; try discriminate. destruct st; discriminate.
Qed.
Lemma not_super n t ts st : chain ts st -> In t ts -> ~ In n st -> str_eqb n t = false.
Proof. intros C I0 N. destruct (str_eqb n t) eqn:E; [|reflexivity]. apply str_eqb_eq in E. subst t. exfalso. apply N. eapply chain_in; eauto. Qed.
Lemma para_spelt super a ts : forall evs pc stk st evs', chain (super :: ts) st -> spelt st evs evs' -> rel ts (para_loop super a pc stk evs) (para_loop super a pc stk evs').
Proof.
  induction evs as [|e evs IH]; intros pc stk st evs' C T.
  - rewrite (nil_inv _ _ T). cbn [para_loop]. eapply rel_ok; [eapply chain_weak, C|constructor].
  - destruct (spelt_inv _ _ _ _ T) as [(r' & -> & T' & F)|(t & b & r' & -> & -> & D & E & N & T')].
    + cbn [para_loop]. destruct (para_step super a pc stk e) as [[(pc' & st')|t']| |] eqn:E; cbn [bind]; [| |exact I|exact I].
      * apply para_step_end in E. eapply IH; [|exact T']. eapply entry_chain, entry_of; eauto.
      * apply para_step_done in E. subst e. destruct F as (st0 & ->). eapply rel_ok; [eapply chain_close, C|exact T'].
    + destruct (para_two super a t b (not_super _ _ _ _ C (or_introl eq_refl) N) (pc, stk)) as (o & o1 & A & B & G). cbn [fst snd] in A, B. cbn [para_loop]. rewrite A, B.
      destruct o1 as [(pc1 & st1)| |]; cbn [bind fst snd] in *; [|destruct o as [(? & ?)| |]; try discriminate; exact I..]. rewrite G.
      destruct o as [(pc2 & st2)| |]; cbn [bind]; [|exact I|exact I]. eapply IH; eauto.
Qed.
Lemma text_spelt n a b ts st evs evs' : (b = true -> chain ts st) -> (b = false -> chain (n :: ts) st) -> spelt st evs evs' -> rel ts (read_text_or_tag n a b evs) (read_text_or_tag n a b evs').
Proof. intros C C' T. unfold read_text_or_tag. destruct b; [eapply rel_ok; eauto|]. eapply para_spelt; eauto. Qed.
Lemma text_short n a q : read_text_or_tag n a false (EEnd n :: q) = Ok (TcEmpty, q).
Proof. cbn [read_text_or_tag para_loop para_step]. now rewrite str_eqb_refl. Qed.
Lemma message_spelt {T0} (ty : option (str -> res T0)) m0 tag a b ts st evs evs' : (b = true -> chain ts st) -> (b = false -> chain (tag :: ts) st) -> spelt st evs evs' ->
  rel ts (read_message ty m0 tag a b evs) (read_message ty m0 tag a b evs').
Proof.
  intros C C' T. unfold read_message. apply bind_rel_same. intros m. eapply bind_rel; [eapply text_spelt; eauto|]. intros t r r' st' G T'. destruct t; try exact I; eapply rel_ok; eauto.
Qed.
Lemma message_short {T0} (ty : option (str -> res T0)) m0 tag a q q' : read_message ty m0 tag a false (EEnd tag :: q) = let* (x, _) := read_message ty m0 tag a true q' in Ok (x, q).
Proof. unfold read_message. rewrite text_short. destruct (message_attrs ty m0 a); reflexivity. Qed.
Lemma message_empty {T0} (ty : option (str -> res T0)) m0 tag a q q' : read_message ty m0 tag a true q = let* (x, _) := read_message ty m0 tag a true q' in Ok (x, q).
Proof. unfold read_message. cbn [read_text_or_tag]. destruct (message_attrs ty m0 a); reflexivity. Qed.
Lemma valids_spelt ts n : forall m st evs evs' v bk, chain (t_valids :: ts) st -> spelt st evs evs' -> (length evs <= n)%nat -> (length evs' <= m)%nat -> rel ts (read_valids n evs v bk) (read_valids m evs' v bk).
Proof.
  induction n as [|n IH]; intros m st evs evs' v bk C T L M.
  - destruct evs; [|cbn in L; lia]. rewrite (nil_inv _ _ T). destruct m; (eapply rel_ok; [eapply chain_weak, C|constructor]).
  - destruct evs as [|e r]; [rewrite (nil_inv _ _ T); destruct m; (eapply rel_ok; [eapply chain_weak, C|constructor])|]. cbn [length] in L.
    destruct (spelt_inv _ _ _ _ T) as [(r' & -> & T' & F)|(t & a & r' & -> & -> & D & E & N & T')].
    + cbn [length] in M. destruct m as [|m]; [lia|].
      assert (R : e <> EEnd t_valids -> forall v' bk', rel ts (read_valids n r v' bk') (read_valids m r' v' bk')).
      { intros N v' bk'. eapply IH; [|exact T'|lia|lia]. eapply entry_chain, entry_of; eauto. }
      assert (Q : e <> EEnd t_valids -> forall T0 (ty : option (str -> res T0)) m0 t a b (k : message T0 -> validation), on_tag e = Some (t, a, b) ->
        rel ts (let* (x, r1) := read_message ty m0 t a b r in read_valids n r1 (k x) bk) (let* (x, r1) := read_message ty m0 t a b r' in read_valids m r1 (k x) bk)).
      { intros N T0 ty m0 t a b k O. pose proof (entry_of _ _ _ _ C F N) as G.
        assert (X : rel (t_valids :: ts) (read_message ty m0 t a b r) (read_message ty m0 t a b r')).
        { eapply message_spelt; [intros _; eapply entry_chain, G|intros ->; eapply entry_start; eauto|exact T']. }
        destruct (read_message ty m0 t a b r) as [(x & r1)| |] eqn:E1, (read_message ty m0 t a b r') as [(x' & r2)| |] eqn:E2; cbn in X; try contradiction; [|exact I|exact I].
        destruct X as (<- & st2 & C2 & T2). cbn [bind]. apply message_sfx in E1. apply message_sfx in E2. apply sfx_length in E1. apply sfx_length in E2. eapply IH; [exact C2|exact T2|lia|lia]. }
      destruct e; cbn [read_valids] in *; try (apply R; discriminate).
      * destruct (str_eqb n0 t_valid); [apply bind_rel_same; intros w; apply bind_rel_same; intros (b1 & n1); apply R; discriminate|].
        destruct (str_eqb n0 t_err); [apply Q; [discriminate|reflexivity]|]. destruct (str_eqb n0 t_help); [apply Q; [discriminate|reflexivity]|]. apply R. discriminate.
      * destruct (str_eqb n0 t_err); [apply Q; [discriminate|reflexivity]|]. destruct (str_eqb n0 t_help); [apply Q; [discriminate|reflexivity]|]. apply R. discriminate.
      * destruct (str_eqb n0 t_valid) eqn:E; [apply bind_rel_same; intros (b1 & n1); apply R; intros X; injection X as ->; discriminate E|].
        destruct (str_eqb n0 t_valids) eqn:E'; [destruct F as (st0 & ->); eapply rel_ok; [eapply chain_close, C|exact T']|]. apply R. intros X. injection X as ->. rewrite str_eqb_refl in E'. discriminate.
    + cbn [length] in M. destruct m as [|m]; [lia|]. pose proof (not_super _ _ _ _ C (or_introl eq_refl) N) as V. cbn [read_valids]. rewrite (eother t t_valid E eq_refl).
      destruct (str_eqb t t_err) eqn:E1; [|destruct (str_eqb t t_help) eqn:E2].
      * rewrite (message_short _ _ _ _ r' []), (message_empty _ _ _ _ r []). match goal with |- context [read_message ?ty ?m t a true []] => destruct (read_message ty m t a true []) as [(x & ?)| |] end; cbn [bind]; [|exact I|exact I]. eapply IH; [exact C|exact T'|lia|lia].
      * rewrite (message_short _ _ _ _ r' []), (message_empty _ _ _ _ r []). match goal with |- context [read_message ?ty ?m t a true []] => destruct (read_message ty m t a true []) as [(x & ?)| |] end; cbn [bind]; [|exact I|exact I]. eapply IH; [exact C|exact T'|lia|lia].
      * destruct m as [|m]; [lia|]. cbn [read_valids]. rewrite (eother t t_valid E eq_refl), V. eapply IH; [exact C|exact T'|lia|lia].
Qed.

(** ** Styles *)

Ltac rel_parts := repeat match goal with
  | |- rel _ (let (_, _) := ?p in _) _ => destruct p
  | |- rel _ (if ?b then _ else _) _ => destruct b
  | |- rel _ (match ?o with Some _ => _ | None => _ end) _ => destruct o
  | |- rel _ (let* _ := ?x in _) (let* _ := ?x in _) => apply bind_rel_same; intro
  | |- rel _ (Ok _) (Ok _) => eapply rel_ok; eassumption
  | |- rel _ Err Err => exact I
  | p : (_ * _)%type |- _ => destruct p
  end.
Lemma font_calm : calm font_step.
Proof. intros ts s e st r r' N T. apply entry_chain in N. unfold font_step. destruct (on_tag e) as [((n & a) & b)|]; rel_parts. Qed.
Lemma font_pairs : pairs font_step.
Proof.
  apply (pairs_fun _ (fun s n a => if str_eqb n t_font then let '(nm, at') := copy_style_attr a in Ok (SBook (am_put nm (Font nm (snd s) at') (sk_fonts (fst s))) (sk_book (fst s)), OContent) else Ok s));
    intros; unfold font_step; cbn [on_tag]; try reflexivity; destruct (str_eqb n t_font); try reflexivity; destruct (copy_style_attr a); reflexivity.
Qed.
Lemma fonts_spelt o b ts st evs evs' : chain (t_fonts :: ts) st -> spelt st evs evs' -> rel ts (read_fonts o b evs) (read_fonts o b evs').
Proof. intros C T. unfold read_fonts. eapply bind_rel; [eapply (reading_some _ _ ts font_calm font_pairs font_shrinks); eauto|]. intros. rel_parts. Qed.
Lemma style_calm f : calm (style_step f).
Proof. intros ts s e st r r' N T. apply entry_chain in N. unfold style_step. destruct (on_tag e) as [((n & a) & b)|]; [|rel_parts]. destruct f; rel_parts. Qed.
Lemma style_pairs f : pairs (style_step f).
Proof.
  apply (pairs_fun _ (fun s n a => let* (s', _) := style_step f s (EStart n a) [] in Ok s')); intros; unfold style_step; cbn [on_tag]; try reflexivity;
    destruct f; cbn [bind]; try reflexivity; destruct (str_eqb n (main_tag FCell)); try reflexivity; destruct (str_eqb n t_text); try reflexivity; destruct (str_eqb n t_para); try reflexivity;
    destruct (str_eqb n t_map); try reflexivity; destruct (read_smap _ a); reflexivity.
Qed.
Lemma style_spelt f o u tag a b bk ts st evs evs' : (b = true -> chain ts st) -> (b = false -> chain (tag :: ts) st) -> spelt st evs evs' -> rel ts (read_style f o u tag a b bk evs) (read_style f o u tag a b bk evs').
Proof.
  intros C C' T. unfold read_style. destruct (copy_style_attr a) as (nm & at'). destruct b; [specialize (C eq_refl); rel_parts|].
  eapply bind_rel; [eapply (reading_some _ _ ts (style_calm f) (style_pairs f) (style_shrinks f)); eauto|]. intros p r r' st' G T'. rel_parts.
Qed.
Lemma style_style_none todo : ~ In k_family (map fst todo) -> forall o u tag a b bk evs, read_style_style todo o u tag a b bk evs = Ok (bk, evs).
Proof.
  induction todo as [|(k & v) todo IH]; intros N o u tag a b bk evs; [reflexivity|]. cbn [read_style_style map fst] in *. destruct (str_eqb k k_family) eqn:E; [apply str_eqb_eq in E; subst; exfalso; apply N; now left|].
  apply IH. intros X. apply N. now right.
Qed.
Lemma style_style_spelt todo : NoDup (map fst todo) -> forall o u tag a b bk ts st evs evs', (b = true -> chain ts st) -> (b = false -> chain (tag :: ts) st) -> spelt st evs evs' ->
  rel ts (read_style_style todo o u tag a b bk evs) (read_style_style todo o u tag a b bk evs').
Proof.
  induction todo as [|(k & v) todo IH]; intros D o u tag a b bk ts st evs evs' C C' T; cbn [read_style_style].
  - eapply rel_ok; [|exact T]. destruct b; [auto|]. eapply chain_weak, C', eq_refl.
  - cbn [map fst] in D. apply NoDup_cons_iff in D as (N & D). destruct (str_eqb k k_family) eqn:E; [|eapply IH; eauto]. apply str_eqb_eq in E. subst k.
    destruct (family_of (raw v)); [|exact I]. eapply bind_rel; [eapply style_spelt; eauto|]. intros. rewrite !(style_style_none _ N). eapply rel_ok; eauto.
Qed.
Lemma style_short f o u tag a bk q q' : read_style f o u tag a false bk (EEnd tag :: q) = let* (b', _) := read_style f o u tag a true bk q' in Ok (b', q).
Proof. unfold read_style. destruct (copy_style_attr a). cbn [length reading]. rewrite str_eqb_refl. cbn [bind fst snd]. destruct (add_item _ _ bk); reflexivity. Qed.
Lemma style_empty f o u tag a bk q q' : read_style f o u tag a true bk q = let* (b', _) := read_style f o u tag a true bk q' in Ok (b', q).
Proof. unfold read_style. destruct (copy_style_attr a). destruct (add_item _ _ bk); reflexivity. Qed.
Lemma style_style_pair todo : NoDup (map fst todo) -> forall o u tag a bk, exists x : res stylebook,
  (forall p, read_style_style todo o u tag a true bk p = let* b' := x in Ok (b', p))
  /\ ((forall q, read_style_style todo o u tag a false bk (EEnd tag :: q) = let* b' := x in Ok (b', q))
      \/ (forall q, read_style_style todo o u tag a false bk q = let* b' := x in Ok (b', q))).
Proof.
  induction todo as [|(k & v) todo IH]; intros D o u tag a bk.
  - exists (Ok bk). split; [reflexivity|]. right. reflexivity.
  - cbn [map fst] in D. apply NoDup_cons_iff in D as (N & D). cbn [read_style_style]. destruct (str_eqb k k_family) eqn:E; [|apply IH, D]. apply str_eqb_eq in E. subst k.
    destruct (family_of (raw v)) as [f|]; [|exists Err; split; [reflexivity|right; reflexivity]].
    exists (let* (b', _) := read_style f o u tag a true bk [] in Ok b'). split; [intros p; rewrite (style_empty _ _ _ _ _ _ p [])|left; intros q; rewrite (style_short _ _ _ _ _ _ q [])];
      destruct (read_style f o u tag a true bk []) as [(b' & ?)| |]; cbn [bind]; try reflexivity; now rewrite (style_style_none _ N).
Qed.
Definition part_step (ty : ptype) : part -> event -> list event -> res (part * list event) :=
  match ty with PTextPart | PCurrency | PFill => text_step | PNumber => number_step | _ => skip_step end.
Lemma part_calm ty : calm (part_step ty).
Proof.
  intros ts s e st r r' N T. apply entry_chain in N. assert (A : calm text_step). { intros ts0 s0 e0 st0 r0 r0' N0 T0. apply entry_chain in N0. destruct e0; cbn [text_step]; rel_parts. }
  destruct ty; cbn [part_step]; try (unfold skip_step; rel_parts; fail); destruct e; cbn [text_step number_step]; rel_parts.
Qed.
Lemma part_pairs ty : pairs (part_step ty).
Proof.
  apply (pairs_fun _ (fun s n a => match ty with PNumber => if str_eqb n t_embedded then position_attrs s a else Ok s | _ => Ok s end)); intros; destruct ty; cbn [part_step]; try reflexivity;
    cbn [number_step]; destruct (str_eqb n t_embedded); reflexivity.
Qed.
Lemma part_step_shrinks ty : shrinks (part_step ty).
Proof. exact (part_shrinks ty). Qed.
Lemma part_spelt ty tag a b ts st evs evs' : (b = true -> chain ts st) -> (b = false -> chain (tag :: ts) st) -> spelt st evs evs' -> rel ts (read_part ty tag a b evs) (read_part ty tag a b evs').
Proof.
  intros C C' T. unfold read_part. destruct b; [eapply rel_ok; eauto|]. cbv zeta. fold (part_step ty). eapply bind_rel; [eapply (reading_some tag (part_step ty) ts (part_calm ty) (part_pairs ty) (part_step_shrinks ty)); eauto|].
  intros. rel_parts.
Qed.
Lemma part_short ty tag a q : read_part ty tag a false (EEnd tag :: q) = Ok (Part ty a None None, q).
Proof. unfold read_part. cbn [length reading]. rewrite str_eqb_refl. reflexivity. Qed.
Lemma format_calm : calm format_step.
Proof.
  intros ts s e st r r' N T. unfold format_step. destruct (on_tag e) as [((n & a) & b)|] eqn:O; [|apply entry_chain in N; rel_parts]. destruct (part_of n) as [ty|] eqn:P.
  - eapply bind_rel; [eapply part_spelt; [intros _; eapply entry_chain, N|intros ->; eapply entry_start; eauto|exact T]|]. intros. rel_parts.
  - apply entry_chain in N. destruct s. rel_parts.
Qed.
Lemma format_pairs : pairs format_step.
Proof.
  intros s n a E D. unfold format_step. cbn [on_tag]. destruct (part_of n) as [ty|].
  - exists (Ok (add_part (Part ty a None None) s)). split; [reflexivity|]. left. intros q. now rewrite part_short.
  - destruct s as [x t ps ms]. destruct (str_eqb n t_map); [|destruct (str_eqb n t_text)]; (eexists (Ok _); split; [reflexivity|]; right; split; intros; reflexivity).
Qed.
Lemma format_spelt f o u tag a bk ts st evs evs' : chain (tag :: ts) st -> spelt st evs evs' -> rel ts (read_format f o u tag a bk evs) (read_format f o u tag a bk evs').
Proof.
  intros C T. unfold read_format. destruct (copy_style_attr a). eapply bind_rel; [eapply (reading_some _ _ ts format_calm format_pairs format_shrinks); eauto|]. intros. rel_parts.
Qed.
Lemma page_calm : calm page_step.
Proof. intros ts (([us p h f] & hd) & ft) e st r r' N T. apply entry_chain in N. unfold page_step. destruct e; rel_parts. Qed.
Lemma page_pairs : pairs page_step.
Proof.
  apply (pairs_fun _ (fun (s : pbody * bool * bool) n a => let '(PBody us p h f, hd, ft) := s in if str_eqb n t_page_props then Ok (PBody us (p ++ a) h f, hd, ft)
    else if str_eqb n t_hf_props then Ok (PBody us p (if hd then h ++ a else h) (if ft then f ++ a else f), hd, ft) else Ok s));
    intros (([us p h f] & hd) & ft); intros; cbn [page_step]; rewrite ?(eother n t_header_style H eq_refl), ?(eother n t_footer_style H eq_refl); try reflexivity;
    (destruct (str_eqb n t_page_props); [reflexivity|]); destruct (str_eqb n t_hf_props); reflexivity.
Qed.
Lemma page_spelt a bk ts st evs evs' : chain (t_page :: ts) st -> spelt st evs evs' -> rel ts (read_page a bk evs) (read_page a bk evs').
Proof.
  intros C T. unfold read_page. destruct (fold_left page_attr a _). eapply bind_rel; [eapply (reading_some _ _ ts page_calm page_pairs page_shrinks); eauto|]. intros q r r' st' G T'. apply bind_rel_same. intros. rel_parts.
Qed.
Lemma hf_calm : calm hf_step.
Proof.
  intros ts s e st r r' N T. unfold hf_step. destruct (on_tag e) as [((n & a) & b)|] eqn:O; [|apply entry_chain in N; rel_parts]. destruct s as ([d le ce ri co] & tc).
  assert (X : rel ts (read_xml n a b r) (read_xml n a b r')) by (eapply xml_spelt; [intros _; eapply entry_chain, N|intros ->; eapply entry_start; eauto|exact T]).
  assert (Y : rel ts (read_text_or_tag n a b r) (read_text_or_tag n a b r')) by (eapply text_spelt; [intros _; eapply entry_chain, N|intros ->; eapply entry_start; eauto|exact T]).
  apply entry_chain in N. repeat match goal with |- rel _ (if ?b then _ else _) _ => destruct b end; try (eapply bind_rel; [first [exact X|exact Y]|intros; rel_parts]). rel_parts.
Qed.
Lemma hf_pairs : pairs hf_step.
Proof.
  intros s n a E D. unfold hf_step. cbn [on_tag]. destruct s as ([d le ce ri co] & tc).
  destruct (str_eqb n t_left); [exists (Ok (HF d [] ce ri co, tc)); split; [reflexivity|]; left; intros; now rewrite xml_short|].
  destruct (str_eqb n t_center); [exists (Ok (HF d le [] ri co, tc)); split; [reflexivity|]; left; intros; now rewrite xml_short|].
  destruct (str_eqb n t_right); [exists (Ok (HF d le ce [] co, tc)); split; [reflexivity|]; left; intros; now rewrite xml_short|].
  destruct (str_eqb n t_p || str_eqb n t_h); [exists (Ok (HF d le ce ri co, append_text TcEmpty tc)); split; [reflexivity|]; left; intros; now rewrite text_short|].
  exists (Ok (HF d le ce ri co, tc)). split; [reflexivity|]. right. split; reflexivity.
Qed.
Lemma hf_spelt tag a ts st evs evs' : chain (tag :: ts) st -> spelt st evs evs' -> rel ts (read_hf tag a evs) (read_hf tag a evs').
Proof.
  intros C T. unfold read_hf. apply bind_rel_same. intros h. eapply bind_rel; [eapply (reading_some _ _ ts hf_calm hf_pairs hf_shrinks); eauto|]. intros p r r' st' G T'. destruct (snd p) as ([d le ce ri co] & tc). rel_parts.
Qed.
Lemma hslot_either n : either n = true -> hslot_of n = None.
Proof. intros E. unfold hslot_of. destruct (find _ all_hslots) as [h|] eqn:F; [|reflexivity]. apply find_some in F as (_ & F). apply str_eqb_eq in F. subst n. destruct h; discriminate E. Qed.
Lemma master_calm : calm master_step.
Proof.
  intros ts s e st r r' N T. unfold master_step. pose proof (entry_chain _ _ _ N) as C. destruct e; try (rel_parts; fail). destruct (hslot_of n); [|rel_parts].
  eapply bind_rel; [eapply hf_spelt; [eapply entry_start; [exact N|reflexivity]|exact T]|]. intros. rel_parts.
Qed.
Lemma master_pairs : pairs master_step.
Proof. apply (pairs_fun _ (fun s n a => Ok s)); intros; cbn [master_step]; try reflexivity. now rewrite hslot_either. Qed.
Lemma master_spelt a bk ts st evs evs' : chain (t_master :: ts) st -> spelt st evs evs' -> rel ts (read_master a bk evs) (read_master a bk evs').
Proof.
  intros C T. unfold read_master. destruct (fold_left master_attr a _). eapply bind_rel; [eapply (reading_some _ _ ts master_calm master_pairs master_shrinks); eauto|]. intros q r r' st' G T'. apply bind_rel_same. intros. rel_parts.
Qed.
Lemma format_either n : either n = true -> format_of n = None.
Proof. intros E. unfold format_of. destruct (find _ _) as [h|] eqn:F; [|reflexivity]. apply find_some in F as (X & F). apply str_eqb_eq in F. subst n. cbn in X. repeat destruct X as [<- |X]; try discriminate E. contradiction. Qed.
Lemma format_swallows n f : format_of n = Some f -> swallows n = true.
Proof. intros F. unfold format_of in F. apply find_some in F as (X & F). apply str_eqb_eq in F. subst n. cbn in X. repeat destruct X as [<- |X]; try reflexivity. contradiction. Qed.
Lemma styles_calm o : calm (styles_step o).
Proof.
  intros ts s e st r r' N T. unfold styles_step. destruct (on_tag e) as [((n & a) & b)|] eqn:O; [|apply entry_chain in N; rel_parts].
  assert (S : forall u, rel ts (read_style_style a o u n a b s r) (read_style_style a o u n a b s r')).
  { intros u. eapply style_style_spelt; [eapply entry_nodup; eauto|intros _; eapply entry_chain, N|intros ->; eapply entry_start; eauto|exact T]. }
  destruct (str_eqb n t_style); [apply S|]. destruct (str_eqb n t_default); [apply S|]. destruct (format_of n) as [f|] eqn:F; [|apply entry_chain in N; rel_parts].
  eapply format_spelt; [|exact T]. destruct b; [|eapply entry_start; eauto]. apply format_swallows in F. pose proof (entry_empty _ _ _ _ _ N O). congruence.
Qed.
Lemma styles_pairs o : pairs (styles_step o).
Proof.
  intros s n a E D. unfold styles_step. cbn [on_tag]. rewrite (format_either n E).
  assert (S : forall u, exists x : res stylebook, (forall p, read_style_style a o u n a true s p = let* b' := x in Ok (b', p)) /\
    ((forall q, read_style_style a o u n a false s (EEnd n :: q) = let* b' := x in Ok (b', q)) \/ ((forall q, read_style_style a o u n a false s q = let* b' := x in Ok (b', q)) /\
      forall (s' : stylebook) (q : list event), Ok (s', q) = Ok (s', q)))).
  { intros u. destruct (style_style_pair a D o u n a s) as (x & A & [B|B]); exists x; auto. }
  destruct (str_eqb n t_style); [apply S|]. destruct (str_eqb n t_default); [apply S|]. exists (Ok s). split; [reflexivity|]. right. split; reflexivity.
Qed.
Lemma automatic_calm o : calm (automatic_step o).
Proof.
  intros ts s e st r r' N T. unfold automatic_step. destruct (on_tag e) as [((n & a) & b)|] eqn:O; [|apply entry_chain in N; rel_parts].
  destruct (str_eqb n t_style); [eapply style_style_spelt; [eapply entry_nodup; eauto|intros _; eapply entry_chain, N|intros ->; eapply entry_start; eauto|exact T]|].
  destruct (str_eqb n t_page) eqn:P.
  - eapply page_spelt; [|exact T]. destruct b; [|apply str_eqb_eq in P; subst n; eapply entry_start; eauto]. rewrite (sother n t_page (entry_empty _ _ _ _ _ N O) eq_refl) in P. discriminate.
  - destruct (format_of n) as [f|] eqn:F; [|apply entry_chain in N; rel_parts]. eapply format_spelt; [|exact T]. destruct b; [|eapply entry_start; eauto].
    apply format_swallows in F. pose proof (entry_empty _ _ _ _ _ N O). congruence.
Qed.
Lemma automatic_pairs o : pairs (automatic_step o).
Proof.
  intros s n a E D. unfold automatic_step. cbn [on_tag]. rewrite (format_either n E), (eother n t_page E eq_refl). destruct (str_eqb n t_style).
  - destruct (style_style_pair a D o UAutomatic n a s) as (x & A & [B|B]); exists x; auto.
  - exists (Ok s). split; [reflexivity|]. right. split; reflexivity.
Qed.
Lemma masters_calm : calm masters_step.
Proof.
  intros ts s e st r r' N T. unfold masters_step. destruct (on_tag e) as [((n & a) & b)|] eqn:O; [|apply entry_chain in N; rel_parts].
  destruct (str_eqb n t_master) eqn:P; [|apply entry_chain in N; rel_parts]. eapply master_spelt; [|exact T]. destruct b; [|apply str_eqb_eq in P; subst n; eapply entry_start; eauto].
  rewrite (sother n t_master (entry_empty _ _ _ _ _ N O) eq_refl) in P. discriminate.
Qed.
Lemma masters_pairs : pairs masters_step.
Proof. apply (pairs_fun _ (fun s n a => Ok s)); intros; unfold masters_step; cbn [on_tag]; rewrite ?(eother n t_master H eq_refl); reflexivity. Qed.
Lemma doc_calm o : calm (doc_step o).
Proof.
  intros ts s e st r r' N T. unfold doc_step. pose proof (entry_chain _ _ _ N) as C. destruct e; try (rel_parts; fail). pose proof (entry_start _ _ _ _ _ N eq_refl) as C'.
  destruct (str_eqb n t_fonts) eqn:E1; [apply str_eqb_eq in E1; subst n; eapply fonts_spelt; eauto|].
  destruct (str_eqb n t_office_styles) eqn:E2; [apply str_eqb_eq in E2; subst n; eapply bind_rel; [eapply (reading_some _ _ ts (styles_calm o) (styles_pairs o) (styles_shrinks o)); eauto|intros; rel_parts]|].
  destruct (str_eqb n t_automatic) eqn:E3; [apply str_eqb_eq in E3; subst n; eapply bind_rel; [eapply (reading_some _ _ ts (automatic_calm o) (automatic_pairs o) (automatic_shrinks o)); eauto|intros; rel_parts]|].
  destruct (str_eqb n t_masters) eqn:E4; [apply str_eqb_eq in E4; subst n; eapply bind_rel; [eapply (reading_some _ _ ts masters_calm masters_pairs masters_shrinks); eauto|intros; rel_parts]|rel_parts].
Qed.
Lemma doc_short o s n a q : existsb (str_eqb n) style_sections = true -> doc_step o s (EStart n a) (EEnd n :: q) = Ok (s, q).
Proof.
  intros X. apply existsb_exists in X as (t & X & E). apply str_eqb_eq in E. subst t. cbn in X. repeat destruct X as [<- |X]; try contradiction; reflexivity.
Qed.
Lemma scripts_calm : calm scripts_step.
Proof.
  intros ts s e st r r' N T. unfold scripts_step. destruct (on_tag e) as [((n & a) & b)|] eqn:O; [|apply entry_chain in N; rel_parts].
  destruct (str_eqb n t_script) eqn:E; [|apply entry_chain in N; rel_parts]. eapply bind_rel; [|intros; rel_parts].
  eapply (xml_spelt n a false); [discriminate| |exact T]. intros _. destruct b; [|eapply entry_start; eauto]. rewrite (sother n t_script (entry_empty _ _ _ _ _ N O) eq_refl) in E. discriminate.
Qed.
Lemma scripts_pairs : pairs scripts_step.
Proof.
  apply (pairs_fun _ (fun b n a => if str_eqb n t_listener then let* l := listener_attrs a listener0 in Ok (fst b, am_put (li_event l) l (snd b)) else Ok b));
    intros; unfold scripts_step; cbn [on_tag]; rewrite ?(eother n t_script H eq_refl); try reflexivity; (destruct (str_eqb n t_listener); [|reflexivity]); destruct (listener_attrs a listener0); reflexivity.
Qed.

(** ** Tables *)

Definition sub_tags (m : smode) : list str :=
  match m with
  | SAnn _ => [t_annotation]
  | SAnnText _ d _ => [text_tag d; t_annotation]
  | SAnnTree _ n _ => [n; t_annotation]
  | SFrame _ => [t_frame]
  | SFrameText _ d _ => [frame_tag d; t_frame]
  | SImage _ _ => [t_image; t_frame]
  | SImageData _ _ _ => [t_data; t_image; t_frame]
  | SImageTree _ _ n _ => [n; t_image; t_frame]
  end.
Lemma stays t ts e st : chain (t :: ts) st -> fine e st -> e <> EEnd t -> chain (t :: ts) (opened e st).
Proof. intros. eapply entry_chain, entry_of; eauto. Qed.
Lemma closes t ts e st : chain (t :: ts) st -> fine e st -> e = EEnd t -> chain ts (opened e st).
Proof. intros C F ->. destruct F as (st0 & ->). eapply chain_close, C. Qed.
Lemma rtext_end n t e t' : rtext_step n t e = Ok (inl t') -> e <> EEnd n.
Proof. intros H ->. cbn [rtext_step] in H. rewrite str_eqb_refl in H. discriminate. Qed.
Lemma rtext_done n t e t' : rtext_step n t e = Ok (inr t') -> e = EEnd n.
Proof. destruct e; cbn [rtext_step]; intros H; try discriminate; try (apply bind_ok in H as (? & _ & H); discriminate). destruct (str_eqb n0 n) eqn:E; [apply str_eqb_eq in E; now subst|discriminate]. Qed.
Lemma tree_end n stk e x : tree_step n stk e = Ok (inl x) -> e <> EEnd n.
Proof. intros H ->. cbn [tree_step] in H. rewrite str_eqb_refl in H. destruct stk; discriminate. Qed.
Lemma tree_done n stk e x : tree_step n stk e = Ok (inr x) -> e = EEnd n.
Proof.
  destruct e; cbn [tree_step]; intros H; try discriminate; try (apply bind_ok in H as (? & _ & H); try discriminate; apply bind_ok in H as (? & _ & H); discriminate).
  destruct stk; [discriminate|]. destruct (str_eqb n0 n) eqn:E; [apply str_eqb_eq in E; now subst|]. apply bind_ok in H as (? & _ & H). discriminate.
Qed.
Lemma not_end n t : str_eqb n t = false -> EEnd n <> EEnd t.
Proof. intros E X. injection X as ->. rewrite str_eqb_refl in E. discriminate. Qed.
Lemma sub_keeps m e ts st m' : chain (sub_tags m ++ ts) st -> fine e st -> sub_step m e = Ok (inl m') -> chain (sub_tags m' ++ ts) (opened e st).
Proof.
  intros C F H. destruct m; cbn [sub_step sub_tags app] in *.
  - destruct e; repeat match type of H with (if ?b then _ else _) = _ => destruct b eqn:? end; try discriminate; injection H as <-; cbn [sub_tags app];
      try (apply stays; [exact C|exact F|first [discriminate|now apply not_end]]); cbn [opened];
      repeat match goal with Q : str_eqb _ _ = true |- _ => apply str_eqb_eq in Q; subst end; apply chain_open, C.
  - apply bind_ok in H as ([t'|t'] & E & H); [injection H as <-; apply rtext_end in E; now apply stays|]. apply bind_ok in H as (a' & _ & H). injection H as <-. apply rtext_done in E. eapply closes; eauto.
  - apply bind_ok in H as ([t'|t'] & E & H); injection H as <-; [apply tree_end in E; now apply stays|apply tree_done in E; eapply closes; eauto].
  - destruct e; repeat match type of H with (if ?b then _ else _) = _ => destruct b eqn:? end; try discriminate; injection H as <-; cbn [sub_tags app];
      try (apply stays; [exact C|exact F|first [discriminate|now apply not_end]]); cbn [opened];
      repeat match goal with Q : str_eqb _ _ = true |- _ => apply str_eqb_eq in Q; subst end; apply chain_open, C.
  - apply bind_ok in H as ([t'|t'] & E & H); injection H as <-; [apply rtext_end in E; now apply stays|apply rtext_done in E; eapply closes; eauto].
  - destruct e; repeat match type of H with (if ?b then _ else _) = _ => destruct b eqn:? end; try discriminate; injection H as <-; cbn [sub_tags app];
      try (apply stays; [exact C|exact F|first [discriminate|now apply not_end]]);
      repeat match goal with Q : str_eqb _ _ = true |- _ => apply str_eqb_eq in Q; subst end; first [eapply closes; [exact C|exact F|reflexivity]|cbn [opened]; apply chain_open, C].
  - apply bind_ok in H as ([t'|t'] & E & H); injection H as <-; [apply rtext_end in E; now apply stays|apply rtext_done in E; eapply closes; eauto].
  - apply bind_ok in H as ([t'|t'] & E & H); injection H as <-; [apply tree_end in E; now apply stays|apply tree_done in E; eapply closes; eauto].
Qed.
Lemma sub_done m e ts st d : chain (sub_tags m ++ ts) st -> fine e st -> sub_step m e = Ok (inr d) -> chain ts (opened e st).
Proof.
  intros C F H. destruct m; cbn [sub_step sub_tags app] in *; try (apply bind_ok in H as ([t'|t'] & E & H); try discriminate; apply bind_ok in H as (? & _ & H); discriminate).
  - destruct e; repeat match type of H with (if ?b then _ else _) = _ => destruct b eqn:? end; try discriminate. eapply closes; [exact C|exact F|]. f_equal. now apply str_eqb_eq.
  - destruct e; repeat match type of H with (if ?b then _ else _) = _ => destruct b eqn:? end; try discriminate. eapply closes; [exact C|exact F|]. f_equal. now apply str_eqb_eq.
  - destruct e; repeat match type of H with (if ?b then _ else _) = _ => destruct b eqn:? end; discriminate.
Qed.
Lemma two_map {X Y X' Y'} (step : X -> event -> res (X + Y)) (step' : X' -> event -> res (X' + Y')) (f : X -> X') n a x :
  two step n a x -> (forall y e p, step y e = Ok (inl p) -> step' (f y) e = Ok (inl (f p))) -> (forall y e, step y e = Err -> step' (f y) e = Err) -> (forall y e, step y e = Panic -> step' (f y) e = Panic) ->
  two step' n a (f x).
Proof.
  intros (o & o1 & A & B & G) K KE KP. exists (let* p := o in Ok (f p)), (let* p := o1 in Ok (f p)). split; [|split].
  - destruct o; cbn [bind] in *; auto.
  - destruct o1; cbn [bind] in *; auto.
  - destruct o1 as [p| |]; cbn [bind] in *; [|destruct o; try discriminate; reflexivity..]. destruct o as [q| |]; cbn [bind] in *; auto.
Qed.
Lemma sub_two m n a ts st : either n = true -> chain (sub_tags m ++ ts) st -> ~ In n st -> two sub_step n a m.
Proof.
  intros E C N. assert (Q : forall t, In t (sub_tags m) -> str_eqb n t = false) by (intros t I0; eapply not_super; [exact C|apply in_or_app; now left|exact N]).
  destruct m; cbn [sub_tags] in Q.
  - unfold two. cbn [sub_step]. rewrite (eother n t_creator E eq_refl), (eother n t_date E eq_refl). destruct (is_text_tag n) eqn:P.
    + eexists (Ok _), (Ok _). split; [reflexivity|]. split; [reflexivity|]. cbn [bind sub_step tree_step]. rewrite str_eqb_refl. reflexivity.
    + eexists (Ok _), (Ok _). split; [reflexivity|]. split; [reflexivity|]. cbn [bind sub_step]. rewrite (Q t_annotation) by now left. reflexivity.
  - eapply (two_map (rtext_step (text_tag date)) sub_step (SAnnText a0 date)); [apply rtext_two|..]; intros; cbn [sub_step]; rewrite H; reflexivity.
  - eapply (two_map (tree_step super) sub_step (SAnnTree a0 super)); [apply tree_two, Q; now left|..]; intros; cbn [sub_step]; rewrite H; reflexivity.
  - unfold two. cbn [sub_step]. rewrite (eother n t_desc E eq_refl), (eother n t_title E eq_refl). destruct (str_eqb n t_image) eqn:P.
    + eexists (Ok _), (Ok _). split; [reflexivity|]. split; [reflexivity|]. cbn [bind sub_step]. rewrite P. reflexivity.
    + eexists (Ok _), (Ok _). split; [reflexivity|]. split; [reflexivity|]. cbn [bind sub_step]. rewrite (Q t_frame) by now left. reflexivity.
  - eapply (two_map (rtext_step (frame_tag title)) sub_step (SFrameText f title)); [apply rtext_two|..]; intros; cbn [sub_step]; rewrite H; reflexivity.
  - unfold two. cbn [sub_step]. rewrite (eother n t_data E eq_refl). destruct (is_text_tag n) eqn:P.
    + eexists (Ok _), (Ok _). split; [reflexivity|]. split; [reflexivity|]. cbn [bind sub_step tree_step]. rewrite str_eqb_refl. reflexivity.
    + eexists (Ok _), (Ok _). split; [reflexivity|]. split; [reflexivity|]. cbn [bind sub_step]. rewrite (Q t_image) by now left. reflexivity.
  - eapply (two_map (rtext_step t_data) sub_step (SImageData f i)); [apply rtext_two|..]; intros; cbn [sub_step]; rewrite H; reflexivity.
  - eapply (two_map (tree_step super) sub_step (SImageTree f i super)); [apply tree_two, Q; now left|..]; intros; cbn [sub_step]; rewrite H; reflexivity.
Qed.
Definition cell_tags (m : cmode) : list str := match m with KCell => [] | KPara _ _ _ => [t_p] | KSub q => sub_tags q end.
Lemma cell_keeps tag x m e ts st x' m' : chain (cell_tags m ++ tag :: ts) st -> fine e st -> cell_step tag x m e = Ok (inl (x', m')) -> chain (cell_tags m' ++ tag :: ts) (opened e st).
Proof.
  intros C F H. destruct m; cbn [cell_tags cell_step app] in *.
  - destruct e; repeat match type of H with (if ?b then _ else _) = _ => destruct b eqn:? end; try discriminate;
      try (injection H as <- <-; cbn [cell_tags app]; apply stays; [exact C|exact F|first [discriminate|now apply not_end]]).
    + injection H as <- <-. cbn [cell_tags app opened]. match goal with Q : str_eqb _ _ = true |- _ => apply str_eqb_eq in Q; subst end. apply chain_open, C.
    + apply bind_ok in H as (q & E & H). injection H as <- <-. cbn [cell_tags opened]. cbn [sub_start] in E. destruct (str_eqb n t_annotation) eqn:E1.
      * apply bind_ok in E as (y & _ & E). injection E as <-. apply str_eqb_eq in E1. subst n. apply chain_open, C.
      * destruct (str_eqb n t_frame) eqn:E2; [|discriminate]. injection E as <-. apply str_eqb_eq in E2. subst n. apply chain_open, C.
  - apply bind_ok in H as ([(pc' & st')|t] & E & H); injection H as <- <-; cbn [cell_tags app]; [apply para_step_end in E; now apply stays|apply para_step_done in E; eapply closes; eauto].
  - apply bind_ok in H as ([q|d] & E & H); injection H as <- <-; cbn [cell_tags app]; [eapply sub_keeps; eauto|eapply sub_done; eauto].
Qed.
Lemma cell_done tag x m e ts st x' : chain (cell_tags m ++ tag :: ts) st -> fine e st -> cell_step tag x m e = Ok (inr x') -> chain ts (opened e st).
Proof.
  intros C F H. destruct m; cbn [cell_tags cell_step app] in *.
  - destruct e; repeat match type of H with (if ?b then _ else _) = _ => destruct b eqn:? end; try discriminate; [apply bind_ok in H as (? & _ & H); discriminate|]. eapply closes; [exact C|exact F|]. f_equal. now apply str_eqb_eq.
  - apply bind_ok in H as ([(pc' & st')|t] & E & H); discriminate.
  - apply bind_ok in H as ([q|d] & E & H); discriminate.
Qed.
Definition cell_one (tag : str) (p : cellacc * cmode) (e : event) : res (cellacc * cmode + cellacc) := cell_step tag (fst p) (snd p) e.
Lemma cell_two tag x m n a ts st : either n = true -> chain (cell_tags m ++ tag :: ts) st -> ~ In n st -> two (cell_one tag) n a (x, m).
Proof.
  intros E C N. destruct m as [|b pc stk|q].
  - unfold two, cell_one. cbn [fst snd cell_step]. rewrite (eother n t_p E eq_refl), (eother n t_annotation E eq_refl), (eother n t_frame E eq_refl). cbn [orb].
    exists (Ok (x, KCell)), (Ok (x, KCell)). split; [reflexivity|]. split; [reflexivity|]. cbn [bind fst snd cell_step]. rewrite (not_super _ tag _ _ C); [reflexivity|now left|exact N].
  - assert (Q : str_eqb n t_p = false) by (apply eother; [exact E|reflexivity]).
    apply (two_map (fun p => para_step t_p b (fst p) (snd p)) (cell_one tag) (fun p => (x, KPara b (fst p) (snd p))) n a (pc, stk)); [now apply para_two|..];
      intros; unfold cell_one; cbn [fst snd cell_step]; rewrite H; try reflexivity. destruct p. reflexivity.
  - apply (two_map sub_step (cell_one tag) (fun q => (x, KSub q)) n a q); [eapply sub_two; eauto|..]; intros; unfold cell_one; cbn [fst snd cell_step]; rewrite H; reflexivity.
Qed.
Definition table_tags (m : tmode) : list str := match m with MTable => [] | MCell tag _ c => cell_tags c ++ [tag] | MTree n _ => [n] end.
Lemma table_keeps ign s m e ts st s' m' : chain (table_tags m ++ t_table :: ts) st -> fine e st -> table_step ign s m e = Ok (inl (s', m')) -> chain (table_tags m' ++ t_table :: ts) (opened e st).
Proof.
  intros C F H. destruct m; cbn [table_tags table_step app] in *.
  - assert (K : e <> EEnd t_table -> chain (t_table :: ts) (opened e st)) by (intros; now apply stays). destruct e; cbn [table_event] in H; try (injection H as <- <-; apply K; discriminate).
    + destruct (existsb (str_eqb n) (prelude ++ epilogue)) eqn:E; [injection H as <- <-; apply chain_open, C|].
      repeat match type of H with (if ?b then _ else _) = _ => destruct b eqn:? end; repeat match type of H with (let* _ := _ in _) = _ => apply bind_ok in H as (? & _ & H) end;
        repeat match goal with p : (_ * _)%type |- _ => destruct p end; injection H as <- <-; try (apply K; discriminate). apply chain_open, C.
    + repeat match type of H with (if ?b then _ else _) = _ => destruct b eqn:? end; repeat match type of H with (let* _ := _ in _) = _ => apply bind_ok in H as (? & _ & H) end;
        repeat match goal with p : (_ * _)%type |- _ => destruct p end; try (apply bind_ok in H as (? & _ & H)); injection H as <- <-; apply K; discriminate.
    + destruct (str_eqb n t_table) eqn:E; [discriminate|]. apply not_end in E.
      repeat match type of H with (if ?b then _ else _) = _ => destruct b eqn:? | match ?l with [] => _ | _ :: _ => _ end = _ => destruct l end;
        repeat match type of H with (let* _ := _ in _) = _ => apply bind_ok in H as (? & _ & H) end; injection H as <- <-; apply K, E.
  - rewrite <- app_assoc in C. cbn [app] in C. apply bind_ok in H as ([(x' & cm')|x'] & E & H).
    + injection H as <- <-. cbn [table_tags]. rewrite <- app_assoc. cbn [app]. eapply cell_keeps; eauto.
    + repeat match type of H with (let* _ := _ in _) = _ => apply bind_ok in H as (? & _ & H) end. injection H as <- <-. cbn [table_tags app]. eapply cell_done; eauto.
  - apply bind_ok in H as ([st'|x] & E & H); injection H as <- <-; [apply tree_end in E; now apply stays|apply tree_done in E; eapply closes; eauto].
Qed.
Lemma table_done ign s m e ts st s' : chain (table_tags m ++ t_table :: ts) st -> fine e st -> table_step ign s m e = Ok (inr s') -> chain ts (opened e st).
Proof.
  intros C F H. destruct m; cbn [table_tags table_step app] in *.
  - destruct e; cbn [table_event] in H; try discriminate.
    + repeat match type of H with (if ?b then _ else _) = _ => destruct b eqn:? end; repeat match type of H with (let* _ := _ in _) = _ => apply bind_ok in H as (? & _ & H) end;
        repeat match goal with p : (_ * _)%type |- _ => destruct p end; discriminate.
    + repeat match type of H with (if ?b then _ else _) = _ => destruct b eqn:? end; repeat match type of H with (let* _ := _ in _) = _ => apply bind_ok in H as (? & _ & H) end;
        repeat match goal with p : (_ * _)%type |- _ => destruct p end; try (apply bind_ok in H as (? & _ & H)); discriminate.
    + destruct (str_eqb n t_table) eqn:E; [eapply closes; [exact C|exact F|f_equal; now apply str_eqb_eq]|].
      repeat match type of H with (if ?b then _ else _) = _ => destruct b eqn:? | match ?l with [] => _ | _ :: _ => _ end = _ => destruct l end;
        repeat match type of H with (let* _ := _ in _) = _ => apply bind_ok in H as (? & _ & H) end; discriminate.
  - apply bind_ok in H as ([(x' & cm')|x'] & E & H); [discriminate|]. repeat match type of H with (let* _ := _ in _) = _ => apply bind_ok in H as (? & _ & H) end. discriminate.
  - apply bind_ok in H as ([st'|x] & E & H); discriminate.
Qed.
Definition table_one (ign : bool) (p : tstate * tmode) (e : event) : res (tstate * tmode + tstate) := table_step ign (fst p) (snd p) e.
Lemma table_two ign s m n a ts st : either n = true -> chain (table_tags m ++ t_table :: ts) st -> ~ In n st -> two (table_one ign) n a (s, m).
Proof.
  intros E C N. destruct m as [|tag x c|n0 stk].
  - unfold two, table_one. cbn [fst snd table_step table_event]. rewrite (eother n t_cgroup E eq_refl), (eother n t_hcols E eq_refl), (eother n t_rgroup E eq_refl), (eother n t_hrows E eq_refl), (eother n t_row E eq_refl), (eother n t_column E eq_refl).
    destruct (existsb (str_eqb n) (prelude ++ epilogue)); [eexists (Ok _), (Ok _); split; [reflexivity|]; split; [reflexivity|]; cbn [bind fst snd table_step tree_step]; rewrite str_eqb_refl; reflexivity|].
    destruct (str_eqb n t_cell || str_eqb n t_covered).
    + exists (let* d := col_default s in let* x := cell_read_attrs cellacc0 a in let* x := cell_finish ign d x in let* s' := store_cell s x in Ok (s', MTable)), (let* _ := col_default s in let* x := cell_read_attrs cellacc0 a in Ok (s, MCell n x KCell)).
      destruct (col_default s) as [d| |] eqn:D; cbn [bind]; [|repeat split; reflexivity..]. destruct (cell_read_attrs cellacc0 a) as [x| |]; cbn [bind]; [|repeat split; reflexivity..].
      split; [destruct (cell_finish ign d x); cbn [bind]; [destruct (store_cell s _)|..]; reflexivity|]. split; [reflexivity|]. cbn [fst snd table_step cell_step]. rewrite str_eqb_refl. cbn [bind]. rewrite D. cbn [bind].
      destruct (cell_finish ign d x); cbn [bind]; [destruct (store_cell s _)|..]; reflexivity.
    + exists (Ok (s, MTable)), (Ok (s, MTable)). split; [reflexivity|]. split; [reflexivity|]. cbn [bind fst snd table_step table_event].
      rewrite (eother n t_table E eq_refl), (eother n t_cgroup E eq_refl), (eother n t_hcols E eq_refl), (eother n t_rgroup E eq_refl), (eother n t_hrows E eq_refl), (eother n t_row E eq_refl). reflexivity.
  - apply (two_map (cell_one tag) (table_one ign) (fun p => (s, MCell tag (fst p) (snd p))) n a (x, c)).
    + cbn [table_tags] in C. rewrite <- app_assoc in C. eapply cell_two; eauto.
    + intros (y & cy) e (z & cz) H. unfold cell_one in H. unfold table_one. cbn [fst snd table_step] in *. rewrite H. reflexivity.
    + intros (y & cy) e H. unfold cell_one in H. unfold table_one. cbn [fst snd table_step] in *. rewrite H. reflexivity.
    + intros (y & cy) e H. unfold cell_one in H. unfold table_one. cbn [fst snd table_step] in *. rewrite H. reflexivity.
  - apply (two_map (tree_step n0) (table_one ign) (fun p => (s, MTree n0 p)) n a stk); [apply tree_two; eapply not_super; [exact C|now left|exact N]|..];
      intros; unfold table_one; cbn [fst snd table_step]; rewrite H; reflexivity.
Qed.
Lemma table_loop_spelt ign ts evs : forall s m st evs', chain (table_tags m ++ t_table :: ts) st -> spelt st evs evs' -> rel ts (table_loop ign s m evs) (table_loop ign s m evs').
Proof.
  induction evs as [|e evs IH]; intros s m st evs' C T; [rewrite (nil_inv _ _ T); exact I|]. destruct (spelt_inv _ _ _ _ T) as [(r' & -> & T' & F)|(t & b & r' & -> & -> & D & E & N & T')].
  - cbn [table_loop]. destruct (table_step ign s m e) as [[(s' & m')|s']| |] eqn:E; cbn [bind]; [| |exact I|exact I].
    + eapply IH; [eapply table_keeps; eauto|exact T'].
    + eapply rel_ok; [eapply table_done; eauto|exact T'].
  - destruct (table_two ign s m t b ts st E C N) as (o & o1 & A & B & G). unfold table_one in A, B, G. cbn [fst snd] in A, B. cbn [table_loop]. rewrite A, B.
    destruct o1 as [(s1 & m1)| |]; cbn [bind fst snd] in *; [|destruct o as [(? & ?)| |]; try discriminate; exact I..]. rewrite G. destruct o as [(s2 & m2)| |] eqn:O; cbn [bind]; [|exact I|exact I].
    eapply IH; [|exact T']. cbn [bind] in A. assert (X : chain (table_tags m1 ++ t_table :: ts) (t :: st)) by (eapply (table_keeps ign s m (EStart t b)); [exact C|exact D|exact B]).
    exact (table_keeps ign s1 m1 (EEnd t) ts (t :: st) s2 m2 X (ex_intro _ st eq_refl) G).
Qed.
Lemma table_spelt ign n a ts st evs evs' : chain (t_table :: ts) st -> spelt st evs evs' -> rel ts (read_table ign (EStart n a :: evs)) (read_table ign (EStart n a :: evs')).
Proof. intros C T. unfold read_table. apply bind_rel_same. intros sh. eapply bind_rel; [eapply table_loop_spelt; [exact C|exact T]|]. intros. rel_parts. Qed.
Lemma body_calm ign : calm (body_step ign).
Proof.
  intros ts s e st r r' N T. unfold body_step. destruct (on_tag e) as [((n & a) & b)|] eqn:O; [|apply entry_chain in N; rel_parts].
  destruct (negb b && str_eqb n t_valids) eqn:E1.
  - apply andb_true_iff in E1 as (B & E1). apply negb_true_iff in B. subst b. apply str_eqb_eq in E1. subst n. eapply bind_rel; [eapply valids_spelt; [eapply entry_start; eauto|exact T|auto|auto]|intros; rel_parts].
  - destruct (negb b && str_eqb n t_table) eqn:E2.
    + apply andb_true_iff in E2 as (B & E2). apply negb_true_iff in B. subst b. apply str_eqb_eq in E2. subst n. pose proof (entry_start _ _ _ _ _ N O) as C. destruct e; cbn in O; try discriminate. eapply bind_rel; [eapply table_spelt; [exact C|exact T]|intros; rel_parts].
    + destruct (existsb (str_eqb n) (prelude_tags ++ epilogue_tags)) eqn:E; [|apply entry_chain in N; rel_parts].
      eapply bind_rel; [eapply xml_spelt; [intros _; eapply entry_chain, N|intros ->; eapply entry_start; eauto|exact T]|intros; rel_parts].
Qed.
Lemma body_pairs ign : pairs (body_step ign).
Proof.
  intros w n a E D. unfold body_step. cbn [on_tag negb andb]. rewrite (eother n t_table E eq_refl). destruct (str_eqb n t_valids) eqn:V.
  - apply str_eqb_eq in V. subst n. exists (Ok w). split; [reflexivity|]. left. intros q. cbn [length read_valids]. destruct w. reflexivity.
  - destruct (existsb (str_eqb n) (prelude_tags ++ epilogue_tags)).
    + exists (Ok (put_extra (wb_extra w ++ [XTag n a []]) w)). split; [reflexivity|]. left. intros q. now rewrite xml_short.
    + exists (Ok w). split; [reflexivity|]. right. split; reflexivity.
Qed.
Lemma body_spelt ign w ts st evs evs' : chain (t_body :: ts) st -> spelt st evs evs' -> rel ts (read_office_body ign w evs) (read_office_body ign w evs').
Proof. intros C T. unfold read_office_body. eapply bind_rel; [eapply (reading_some _ _ ts (body_calm ign) (body_pairs ign) (body_shrinks ign)); eauto|]. intros. rel_parts. Qed.
Lemma body_short ign w q : read_office_body ign w (EEnd t_body :: q) = Ok (w, q).
Proof. reflexivity. Qed.

(** ** Files *)

Definition meta_tags (s : mstate) : list str := match s with MOutside _ => [] | MInside _ => [MetaModel.t_meta] | MetaModel.MText _ n _ _ | MUser _ n _ _ => [n; MetaModel.t_meta] end.
Lemma meta_keeps e s s' ts st : (match s with MOutside _ => False | _ => True end) -> chain (meta_tags s ++ ts) st -> fine e st -> mstep e s = Ok s' -> chain (meta_tags s' ++ ts) (opened e st).
Proof.
  intros O C F H. destruct s; cbn [meta_tags mstep app] in *; [contradiction| | |].
  - destruct e; try (injection H as <-; apply stays; [exact C|exact F|discriminate]).
    + destruct (find _ all_fields) as [f|] eqn:E; [injection H as <-; apply chain_open, C|].
      repeat match type of H with (if ?b then _ else _) = _ => destruct b eqn:? end; try (apply bind_ok in H as (? & _ & H)); injection H as <-; try (apply stays; [exact C|exact F|discriminate]). apply chain_open, C.
    + destruct (str_eqb n MetaModel.t_meta) eqn:E; injection H as <-; [eapply closes; [exact C|exact F|f_equal; now apply str_eqb_eq]|apply stays; [exact C|exact F|now apply not_end]].
  - destruct e; try (injection H as <-); try (apply bind_ok in H as (? & _ & H); injection H as <-); cbn [meta_tags app]; try (apply stays; [exact C|exact F|discriminate]).
    destruct (str_eqb n0 n) eqn:E; [apply bind_ok in H as (? & _ & H); injection H as <-; eapply closes; [exact C|exact F|f_equal; now apply str_eqb_eq]|]. injection H as <-. apply stays; [exact C|exact F|now apply not_end].
  - destruct e; try (injection H as <-); try (apply bind_ok in H as (? & _ & H); injection H as <-); cbn [meta_tags app]; try (apply stays; [exact C|exact F|discriminate]).
    destruct (str_eqb n0 n) eqn:E; injection H as <-; [eapply closes; [exact C|exact F|f_equal; now apply str_eqb_eq]|]. apply stays; [exact C|exact F|now apply not_end].
Qed.
Lemma field_either n : either n = true -> find (fun f => str_eqb (field_tag f) n) all_fields = None.
Proof. intros E. destruct (find _ all_fields) as [h|] eqn:F; [|reflexivity]. apply find_some in F as (_ & F). apply str_eqb_eq in F. subst n. destruct h; discriminate E. Qed.
Lemma meta_spelt ts evs : forall s st evs', (match s with MOutside _ => False | _ => True end) -> chain (meta_tags s ++ ts) st -> spelt st evs evs' -> rel ts (meta_loop s evs) (meta_loop s evs').
Proof.
  induction evs as [|e evs IH]; intros s st evs' O C T; [rewrite (nil_inv _ _ T); exact I|]. destruct (spelt_inv _ _ _ _ T) as [(r' & -> & T' & F)|(t & b & r' & -> & -> & D & E & N & T')].
  - cbn [meta_loop]. destruct (mstep e s) as [s'| |] eqn:E; cbn [bind]; [|exact I|exact I]. pose proof (meta_keeps _ _ _ _ _ O C F E) as K. destruct s'; [eapply rel_ok; [exact K|exact T']|eapply IH; eauto; exact I..].
  - assert (Q : forall x, In x (meta_tags s) -> str_eqb t x = false) by (intros x I0; eapply not_super; [exact C|apply in_or_app; now left|exact N]).
    assert (M1 : mstep (EEmpty t b) s = Ok s) by (destruct s; [contradiction|reflexivity..]).
    assert (M2 : mstep (EStart t b) s = Ok s).
    { destruct s; cbn [mstep]; [contradiction| |reflexivity|reflexivity]. rewrite (field_either t E), (eother t t_template E eq_refl), (eother t (lit "meta:auto-reload") E eq_refl), (eother t t_links E eq_refl), (eother t t_stats E eq_refl), (eother t MetaModel.t_user E eq_refl). reflexivity. }
    assert (M3 : mstep (EEnd t) s = Ok s) by (destruct s; cbn [mstep meta_tags] in *; [contradiction|rewrite Q by (now left); reflexivity..]).
    cbn [meta_loop]. rewrite M1, M2. cbn [bind]. destruct s; [contradiction| | |]; rewrite M3; cbn [bind]; eapply IH; eauto.
Qed.
Definition config_tags (s : cstate) : list str :=
  match s with COutside _ => [] | CInside _ p stk => (match p with Some _ => [t_item] | None => [] end) ++ map (fun f => end_tag (fr_kind f)) stk end.
Lemma put_kind nm x f f' : frame_put nm x f = Ok f' -> fr_kind f' = fr_kind f.
Proof. unfold frame_put. intros H. destruct (fr_kind f) as [[]|] eqn:K; try (destruct nm; [|discriminate]); apply bind_ok in H as (m & _ & H); injection H as <-; reflexivity. Qed.
Lemma child_tag k n c : child_kind k n = Some c -> n = match c with Some k' => kind_tag k' | None => t_item end.
Proof.
  unfold child_kind. intros H. destruct k as [[]|]; cbv iota in H; repeat match type of H with (if ?b then _ else _) = _ => destruct b eqn:? end; try discriminate; injection H as <-; now apply str_eqb_eq.
Qed.
Lemma config_keeps e s s' ts st : (match s with COutside _ => False | CInside _ _ stk => stk <> [] end) -> chain (config_tags s ++ ts) st -> fine e st -> cstep e s = Ok s' ->
  chain (config_tags s' ++ ts) (opened e st) /\ match s' with COutside _ => True | CInside _ _ stk => stk <> [] end.
Proof.
  intros O C F H. destruct s as [c|c [p|] stk]; cbn [config_tags cstep app] in *; [contradiction| |].
  - destruct e; try (injection H as <-); try (apply bind_ok in H as (? & _ & H); injection H as <-); cbn [config_tags app]; try (split; [apply stays; [exact C|exact F|discriminate]|exact O]).
    destruct (str_eqb n t_item) eqn:E.
    + apply bind_ok in H as (v & _ & H). destruct stk as [|f stk]; [discriminate|]. apply bind_ok in H as (f' & P & H). injection H as <-. cbn [config_tags app map]. rewrite (put_kind _ _ _ _ P). split; [|discriminate].
      eapply closes; [exact C|exact F|f_equal; now apply str_eqb_eq].
    + injection H as <-. split; [apply stays; [exact C|exact F|now apply not_end]|exact O].
  - destruct stk as [|f stk]; [contradiction|]. destruct e; try (injection H as <-; split; [cbn [config_tags app map]; apply stays; [exact C|exact F|discriminate]|discriminate]).
    + unfold cstart in H. destruct (child_kind (fr_kind f) n) as [[k|]|] eqn:K.
      * apply child_tag in K. subst n. cbn [opened]. destruct k; destruct (get_attr a_name attrs); try discriminate; injection H as <-; (split; [cbn [config_tags app map fr_kind end_tag]; apply chain_open, C|discriminate]).
      * apply bind_ok in H as (p & _ & H). injection H as <-. apply child_tag in K. subst n. split; [|discriminate]. cbn [config_tags app map opened]. apply chain_open, C.
      * injection H as <-. split; [|discriminate]. apply stays; [exact C|exact F|discriminate].
    + unfold cend in H. destruct (str_eqb n _) eqn:E; [|injection H as <-; split; [apply stays; [exact C|exact F|now apply not_end]|discriminate]]. apply str_eqb_eq in E.
      assert (X : chain (map (fun f => end_tag (fr_kind f)) stk ++ ts) (opened (EEnd n) st)) by (eapply closes; [exact C|exact F|now f_equal]). destruct stk as [|g stk]; [injection H as <-; split; [exact X|exact I]|].
      apply bind_ok in H as (g' & P & H). injection H as <-. split; [|discriminate]. cbn [config_tags app map]. rewrite (put_kind _ _ _ _ P). exact X.
Qed.
Lemma config_spelt ts evs : forall s st evs', (match s with COutside _ => False | CInside _ _ stk => stk <> [] end) -> chain (config_tags s ++ ts) st -> spelt st evs evs' -> rel ts (config_loop s evs) (config_loop s evs').
Proof.
  induction evs as [|e evs IH]; intros s st evs' O C T; [rewrite (nil_inv _ _ T); exact I|]. destruct (spelt_inv _ _ _ _ T) as [(r' & -> & T' & F)|(t & b & r' & -> & -> & D & E & N & T')].
  - cbn [config_loop]. destruct (cstep e s) as [s'| |] eqn:E; cbn [bind]; [|exact I|exact I]. destruct (config_keeps _ _ _ _ _ O C F E) as (K & K'). destruct s'; [eapply rel_ok; [exact K|exact T']|eapply IH; eauto].
  - assert (M1 : cstep (EEmpty t b) s = Ok s) by (destruct s as [c|c [p|] stk]; [contradiction|reflexivity..]).
    assert (M2 : cstep (EStart t b) s = Ok s).
    { destruct s as [c|c [p|] stk]; cbn [cstep]; [contradiction|reflexivity|]. unfold cstart. destruct stk as [|f stk]; [contradiction|]. destruct (child_kind (fr_kind f) t) as [c0|] eqn:K; [|reflexivity].
      apply child_tag in K. subst t. destruct c0 as [[]|]; discriminate E. }
    assert (M3 : cstep (EEnd t) s = Ok s).
    { destruct s as [c|c [p|] stk]; cbn [cstep]; [contradiction| |].
      - rewrite (eother t t_item E eq_refl). reflexivity.
      - unfold cend. destruct stk as [|f stk]; [contradiction|]. rewrite (eother t (end_tag (fr_kind f)) E); [reflexivity|]. destruct (fr_kind f) as [[]|]; reflexivity. }
    cbn [config_loop]. rewrite M1, M2. cbn [bind]. destruct s; [contradiction|]. rewrite M3. cbn [bind]. eapply IH; eauto.
Qed.
Ltac file_parts N C T := repeat match goal with
  | |- rel _ (if existsb ?f style_sections then _ else _) _ => destruct (existsb f style_sections)
  | |- rel _ (if str_eqb ?n ?t then _ else _) _ => let E := fresh "E" in destruct (str_eqb n t) eqn:E; [apply str_eqb_eq in E; subst n|]
  | |- rel _ (bind (on_root _ _ _ _) _) _ => apply bind_rel_same; intro
  | |- rel ?ts (bind (reading _ _ scripts_step _ _) _) _ => eapply bind_rel; [eapply (reading_some _ _ ts scripts_calm scripts_pairs scripts_shrinks); [eapply entry_start; [exact N|reflexivity]|exact T]|intros]
  | |- rel _ (bind (doc_step ?o _ _ _) _) _ => eapply bind_rel; [eapply (doc_calm o); [exact N|exact T]|intros]
  | |- rel _ (bind (meta_loop _ _) _) _ => eapply bind_rel; [eapply meta_spelt; [exact I|eapply entry_start; [exact N|reflexivity]|exact T]|intros]
  | |- rel _ (bind (config_loop _ _) _) _ => eapply bind_rel; [eapply config_spelt; [discriminate|eapply entry_start; [exact N|reflexivity]|exact T]|intros]
  | |- rel _ (read_office_body _ _ _) _ => eapply body_spelt; [eapply entry_start; [exact N|reflexivity]|exact T]
  | |- rel _ (Ok _) (Ok _) => eapply rel_ok; eassumption
  end.
Lemma content_calm ign : calm (content_step ign).
Proof. intros ts s e st r r' N T. pose proof (entry_chain _ _ _ N) as C. unfold content_step. destruct e; file_parts N C T. Qed.
Lemma fods_calm ign : calm (fods_step ign).
Proof. intros ts s e st r r' N T. pose proof (entry_chain _ _ _ N) as C. unfold fods_step. destruct e; file_parts N C T. Qed.
Lemma fods_only_calm ign : calm (fods_only_step ign).
Proof. intros ts s e st r r' N T. pose proof (entry_chain _ _ _ N) as C. unfold fods_only_step. destruct e; file_parts N C T. Qed.
Lemma styles_file_calm : calm styles_file_step.
Proof. intros ts s e st r r' N T. pose proof (entry_chain _ _ _ N) as C. unfold styles_file_step. destruct e; file_parts N C T. Qed.
Lemma meta_file_calm : calm meta_file_step.
Proof. intros ts s e st r r' N T. pose proof (entry_chain _ _ _ N) as C. unfold meta_file_step. destruct e; file_parts N C T. Qed.
Lemma settings_file_calm : calm settings_file_step.
Proof. intros ts s e st r r' N T. pose proof (entry_chain _ _ _ N) as C. unfold settings_file_step. destruct e; file_parts N C T. Qed.
Lemma pairs_file (step : workbook -> event -> list event -> res (workbook * list event)) :
  (forall w n a p, step w (EEmpty n a) p = Ok (w, p)) -> (forall w n q, step w (EEnd n) q = Ok (w, q)) ->
  (forall w n a, either n = true -> (forall q, step w (EStart n a) (EEnd n :: q) = Ok (w, q)) \/ (forall q, step w (EStart n a) q = Ok (w, q))) -> pairs step.
Proof. intros A B C w n a E D. exists (Ok w). split; [intros; apply A|]. destruct (C w n a E) as [X|X]; [left; exact X|right; split; [exact X|intros; apply B]]. Qed.
Lemma put_styles_same w : put_styles (wb_styles w) w = w. Proof. destruct w. reflexivity. Qed.
Lemma put_meta_same w : put_meta (wb_meta w) w = w. Proof. destruct w. reflexivity. Qed.
Lemma put_scripts_same w : put_scripts (wb_scripts w) w = w. Proof. destruct w. reflexivity. Qed.
Ltac file_pairs n E := repeat match goal with
  | |- context [str_eqb n (lit ?t)] => rewrite (eother n (lit t) E eq_refl)
  | |- context [str_eqb n t_settings] => rewrite (eother n t_settings E eq_refl)
  end.
Lemma content_pairs ign : pairs (content_step ign).
Proof.
  apply pairs_file; try reflexivity. intros w n a E. cbn [content_step]. file_pairs n E.
  destruct (str_eqb n t_scripts) eqn:E1; [left; intros q; apply str_eqb_eq in E1; subst n; cbn [length reading]; rewrite str_eqb_refl; cbn [bind snd]; now rewrite put_scripts_same|].
  destruct (existsb (str_eqb n) style_sections) eqn:E2; [left; intros q; rewrite (doc_short _ _ _ _ _ E2); cbn [bind]; now rewrite put_styles_same|].
  destruct (str_eqb n t_body) eqn:E3; [left; intros q; apply str_eqb_eq in E3; subst n; apply body_short|]. right. reflexivity.
Qed.
Lemma fods_pairs ign : pairs (fods_step ign).
Proof.
  apply pairs_file; try reflexivity. intros w n a E. cbn [fods_step]. file_pairs n E.
  destruct (str_eqb n MetaModel.t_meta) eqn:E0; [left; intros q; apply str_eqb_eq in E0; subst n; cbn [meta_loop mstep]; rewrite str_eqb_refl; cbn [bind]; now rewrite put_meta_same|].
  destruct (str_eqb n t_scripts) eqn:E1; [left; intros q; apply str_eqb_eq in E1; subst n; cbn [length reading]; rewrite str_eqb_refl; cbn [bind snd]; now rewrite put_scripts_same|].
  destruct (existsb (str_eqb n) style_sections) eqn:E2; [left; intros q; rewrite (doc_short _ _ _ _ _ E2); cbn [bind]; now rewrite put_styles_same|].
  destruct (str_eqb n t_body) eqn:E3; [left; intros q; apply str_eqb_eq in E3; subst n; apply body_short|]. right. reflexivity.
Qed.
Lemma fods_only_pairs ign : pairs (fods_only_step ign).
Proof.
  apply pairs_file; try reflexivity. intros w n a E. cbn [fods_only_step]. destruct (str_eqb n t_body) eqn:E3; [left; intros q; apply str_eqb_eq in E3; subst n; apply body_short|]. right. reflexivity.
Qed.
Lemma styles_file_pairs : pairs styles_file_step.
Proof.
  apply pairs_file; try reflexivity. intros w n a E. cbn [styles_file_step]. file_pairs n E.
  destruct (existsb (str_eqb n) style_sections) eqn:E2; [left; intros q; rewrite (doc_short _ _ _ _ _ E2); cbn [bind]; now rewrite put_styles_same|]. right. reflexivity.
Qed.
Lemma meta_file_pairs : pairs meta_file_step.
Proof.
  apply pairs_file; try reflexivity. intros w n a E. cbn [meta_file_step]. file_pairs n E.
  destruct (str_eqb n MetaModel.t_meta) eqn:E0; [left; intros q; apply str_eqb_eq in E0; subst n; cbn [meta_loop mstep]; rewrite str_eqb_refl; cbn [bind]; now rewrite put_meta_same|].
  right. reflexivity.
Qed.
Lemma settings_file_pairs : pairs settings_file_step.
Proof. apply pairs_file; try reflexivity. intros w n a E. cbn [settings_file_step]. file_pairs n E. right. reflexivity. Qed.
Lemma file_respelt step w t t' : calm step -> pairs step -> shrinks step -> respelt t t' -> read_file step w t = read_file step w t'.
Proof.
  intros D P K (evs & evs' & A & A' & T). unfold read_file. rewrite A, A'. cbn [bind].
  assert (R : rel [] (reading (length evs) None step w evs) (reading (length evs') None step w evs')) by (eapply (reading_spelt None step []); eauto; exact I).
  destruct (reading (length evs) None step w evs) as [(p & r)| |], (reading (length evs') None step w evs') as [(p' & r')| |]; cbn in R; try contradiction; [|reflexivity|reflexivity]. destruct R as (-> & _). reflexivity.
Qed.
