(** Lemmas about the styles in a file. *)
From Verif Require Import Base Lib NumModel NumProps EnumModel RefsModel RefsSpec RefsProofs XmlModel XmlSpec XmlProofs CellModel CellIoModel CellIoProofs BookModel BookProps ScriptProofs
  ValidModel ValidProofs StyleModel StyleSpec FlowProofs.

(** ** Writing, reading and what is declared, together *)

(** The elements of the events directly inside of where they are put. *)
Definition shows (evs : list event) (l : list (str * list (str * str))) : Prop :=
  forall sec st rest, (2 <= length st)%nat ->
    declared sec st (evs ++ rest) = (match st with [s; _] => if str_eqb s sec then l else [] | _ => [] end) ++ declared sec st rest.
Lemma shows_nil : shows [] [].
Proof. intros sec st rest _. cbn [app]. destruct st as [|s [|s' [|]]]; try reflexivity. now destruct (str_eqb s sec). Qed.
Lemma shows_app a la b lb : shows a la -> shows b lb -> shows (a ++ b) (la ++ lb).
Proof.
  intros A B sec st rest L. rewrite <- app_assoc, A, B by exact L. rewrite app_assoc. f_equal. destruct st as [|s [|s' [|]]]; try reflexivity. now destruct (str_eqb s sec).
Qed.
Lemma shows_text t : shows [EText t] [].
Proof. intros sec st rest _. cbn [app declared]. destruct st as [|s [|s' [|]]]; try reflexivity. now destruct (str_eqb s sec). Qed.
Lemma shows_esc t : shows (esc_split t) [].
Proof.
  intros sec st rest L. transitivity (declared sec st rest).
  - induction t as [|c t IH]; [reflexivity|]. cbn. destruct (entity_of c); exact IH.
  - destruct st as [|s [|s' [|]]]; try reflexivity. now destruct (str_eqb s sec).
Qed.
Lemma shows_empty lb n a : shows [EEmpty n a; EText (nl lb)] [(n, a)].
Proof. intros sec st rest L. cbn [app declared]. destruct st as [|s [|s' [|]]]; try reflexivity. now destruct (str_eqb s sec). Qed.
Lemma shows_elem lb n a evs l : shows evs l -> shows (EStart n a :: evs ++ [EEnd n; EText (nl lb)]) [(n, a)].
Proof.
  intros E sec st rest L. cbn [app]. rewrite <- app_assoc. cbn [app].
  assert (H : declared sec (n :: st) (evs ++ EEnd n :: EText (nl lb) :: rest) = declared sec st rest).
  { rewrite E by (cbn [length]; lia). cbn [declared tl]. destruct st as [|s [|s' st]]; [cbn in L; lia|cbn in L; lia|reflexivity]. }
  cbn [declared]. destruct st as [|s [|s' [|]]]; rewrite ?H; try reflexivity. now destruct (str_eqb s sec).
Qed.
Lemma shows_node lb x : exists l, shows (node_events lb x) l.
Proof.
  induction x as [t|n a c IH] using xnode_ind'; cbn [node_events].
  - exists []. apply shows_esc.
  - assert (H : exists l, shows (flat_map (node_events lb) c) l).
    { induction IH as [|x c (lx & X) _ (lc & C)]; [exists []; apply shows_nil|]. exists (lx ++ lc). cbn [flat_map]. now apply shows_app. }
    destruct H as (l & H). exists [(n, a)]. destruct c as [|y c]; [apply shows_empty|]. eapply shows_elem. exact H.
Qed.
Lemma shows_nodes lb c : exists l, shows (flat_map (node_events lb) c) l.
Proof. induction c as [|x c (lc & C)]; [exists []; apply shows_nil|]. destruct (shows_node lb x) as (lx & X). exists (lx ++ lc). cbn [flat_map]. now apply shows_app. Qed.

Definition carries {S} (lb : bool) stop step (cs : list call) (l : list (str * list (str * str))) (s s' : S) : Prop :=
  exists evs, flows lb cs evs /\ passes stop step s evs s' /\ shows evs l.
Lemma carries_nil {S} lb stop step (s : S) : carries lb stop step [] [] s s.
Proof. exists []. split; [apply flows_nil|]. split; [apply passes_nil|apply shows_nil]. Qed.
Lemma carries_app {S} lb stop step a la b lb' (s s1 s2 : S) : carries lb stop step a la s s1 -> carries lb stop step b lb' s1 s2 -> carries lb stop step (a ++ b) (la ++ lb') s s2.
Proof.
  intros (ea & A1 & A2 & A3) (eb & B1 & B2 & B3). exists (ea ++ eb). split; [now apply flows_app|]. split; [eapply passes_app; eassumption|now apply shows_app].
Qed.
(** An element without content. *)
Lemma carries_empty {S} lb stop step n c (s s' : S) : mute step -> name_ok n -> Forall good_attr c -> (forall r, step s (EEmpty n (attrs_of c)) r = Ok (s', r)) ->
  carries lb stop step (CEmpty n :: c) [(n, attrs_of c)] s s'.
Proof. intros M N G H. eexists. split; [apply flows_empty; eassumption|]. split; [now apply passes_empty|apply shows_empty]. Qed.
(** An element that has a loop of its own. *)
Lemma carries_elem {S T} lb stop step n c (inner : list call) l (s s' : S) (step' : T -> event -> list event -> res (T * list event)) t t' :
  mute step -> name_ok n -> Forall good_attr c -> carries lb (Some n) step' inner l t t' ->
  (forall E r, reading (length E) (Some n) step' t E = Ok (true, t', r) -> step s (EStart n (attrs_of c)) E = Ok (s', r)) ->
  carries lb stop step (CElem n :: c ++ inner ++ [CEnd n]) [(n, attrs_of c)] s s'.
Proof.
  intros M N G (evs & F & P & Sh) H. eexists. split; [apply flows_elem; eassumption|]. split; [|eapply shows_elem; exact Sh].
  apply passes_sub; [exact M|reflexivity|exact I|]. intros rest. apply H. exact (passes_run _ _ _ _ _ _ (EText (nl lb) :: rest) eq_refl P).
Qed.
Lemma carries_elem_if {S T} lb stop step b n c (inner : list call) l (s s' : S) (step' : T -> event -> list event -> res (T * list event)) t t' :
  mute step -> name_ok n -> Forall good_attr c -> carries lb (Some n) step' inner l t t' -> (b = false -> inner = [] ) ->
  (b = true -> forall E r, reading (length E) (Some n) step' t E = Ok (true, t', r) -> step s (EStart n (attrs_of c)) E = Ok (s', r)) ->
  (b = false -> forall r, step s (EEmpty n (attrs_of c)) r = Ok (s', r)) ->
  carries lb stop step (CElemIf b n :: c ++ inner ++ [CEndIf b n]) [(n, attrs_of c)] s s'.
Proof.
  intros M N G (evs & F & P & Sh) E H1 H2. eexists. split; [apply flows_elem_if; eassumption|]. destruct b.
  - split; [|eapply shows_elem; exact Sh]. apply passes_sub; [exact M|reflexivity|exact I|]. intros rest. apply H1; [reflexivity|]. exact (passes_run _ _ _ _ _ _ (EText (nl lb) :: rest) eq_refl P).
  - split; [|apply shows_empty]. apply passes_empty; [exact M|auto].
Qed.
(** An element whose content is read by the same loop. *)
Lemma carries_through {S} lb stop step n c (inner : list call) l (s s1 s2 s' : S) :
  mute step -> name_ok n -> Forall good_attr c -> stop <> Some n -> carries lb stop step inner l s1 s2 ->
  (forall r, step s (EStart n (attrs_of c)) r = Ok (s1, r)) -> (forall r, step s2 (EEnd n) r = Ok (s', r)) ->
  carries lb stop step (CElem n :: c ++ inner ++ [CEnd n]) [(n, attrs_of c)] s s'.
Proof.
  intros M N G D (evs & F & P & Sh) H1 H2. eexists. split; [apply flows_elem; eassumption|]. split; [|eapply shows_elem; exact Sh].
  apply (passes_app _ _ _ [EStart n (attrs_of c)] s1); [apply passes_event; [reflexivity|exact I|exact H1]|].
  eapply passes_app; [exact P|]. apply (passes_app _ _ _ [EEnd n] s'); [|now apply passes_text].
  apply passes_event; [|exact I|exact H2]. cbn. destruct stop as [q|]; [|reflexivity]. apply str_eqb_neq. congruence.
Qed.

Lemma filter_own a : filter own_attr a = filter kept_attr a.
Proof. reflexivity. Qed.
Lemma fam_value f : fam_name f = family_value f.
Proof. now destruct f. Qed.
Lemma fmt_element f : fmt_tag f = format_element f.
Proof. now destruct f. Qed.

(** ** The inside of a style *)

Lemma mute_style f : mute (style_step f).
Proof. intros s t r. reflexivity. Qed.
Lemma props_carry lb f tag a s s' stop : attrs_ok a -> name_ok tag -> (a = [] -> s' = s) -> (forall r, style_step f s (EEmpty tag a) r = Ok (s', r)) ->
  exists l, carries lb stop (style_step f) (prop_calls tag a) l s s'.
Proof.
  intros A N E H. unfold prop_calls. destruct a as [|kv a]; cbn [is_nil].
  - rewrite E by reflexivity. exists []. apply carries_nil.
  - eexists. apply carries_empty; [apply mute_style|exact N|now apply attr_calls_good|]. rewrite attrs_of_calls. exact H.
Qed.
(** A style with the properties that have been read. *)
Lemma main_carry lb f stop x m p t ts ms a : In f style_kinds -> uses_main f = true -> attrs_ok a ->
  exists l, carries lb stop (style_step f) (prop_calls (main_tag f) a) l (SBody x m p t ts ms) (SBody x (m ++ a) p t ts ms).
Proof.
  intros K U A. apply props_carry; [exact A| | |].
  - cbn in K. repeat destruct K as [<-|K]; try contradiction; try discriminate U; name_lit.
  - intros ->. now rewrite app_nil_r.
  - intros r. cbn in K. repeat destruct K as [<-|K]; try contradiction; try discriminate U; reflexivity.
Qed.
Lemma para_carry lb f stop x m p t ts ms a : uses_para f = true -> attrs_ok a ->
  exists l, carries lb stop (style_step f) (prop_calls t_para a) l (SBody x m p t ts ms) (SBody x m (p ++ a) t ts ms).
Proof.
  intros U A. apply props_carry; [exact A|name_lit|intros ->; now rewrite app_nil_r|]. intros r. destruct f; try discriminate U; reflexivity.
Qed.
Lemma text_carry lb f stop x m p t ts ms a : uses_text f = true -> attrs_ok a ->
  exists l, carries lb stop (style_step f) (prop_calls t_text a) l (SBody x m p t ts ms) (SBody x m p (t ++ a) ts ms).
Proof.
  intros U A. apply props_carry; [exact A|name_lit|intros ->; now rewrite app_nil_r|]. intros r. destruct f; try discriminate U; reflexivity.
Qed.
Lemma smap_carry lb stop x m p t ts ms sm cs : smap_ok sm -> smap_calls sm = Ok cs ->
  exists l, carries lb stop (style_step FCell) cs l (SBody x m p t ts ms) (SBody x m p t ts (push_opt ms sm)).
Proof.
  intros O H. unfold smap_calls in H. destruct sm as [c s b]. cbn [sp_base sp_cond sp_style] in *.
  apply bind_ok in H as (base & B & H). injection H as <-. cbn [app].
  assert (exists k, base = k /\ Forall good_attr k /\ read_smap (SMap c s None) (attrs_of k) = Ok (SMap c s b)) as (k & -> & G & R).
  { destruct b as [r|].
    - apply bind_ok in B as (tx & F & B). injection B as <-. eexists. split; [reflexivity|]. split; [apply Forall_cons; [name_lit|constructor]|].
      cbn [attrs_of attr_of read_smap smap_attr]. replace (str_eqb (lit "style:base-cell-address") (lit "style:condition")) with false by reflexivity.
      replace (str_eqb (lit "style:base-cell-address") (lit "style:apply-style-name")) with false by reflexivity. rewrite str_eqb_refl.
      unfold smap_ok in O. cbn [sp_base] in O. destruct O as (U & O). rewrite (proj2 (cellref_roundtrip_iff _ _ U F) O). reflexivity.
    - injection B as <-. exists []. auto. }
  eexists. apply carries_empty; [apply mute_style|name_lit|repeat (apply Forall_cons; [name_lit|]); exact G|].
  match goal with |- forall r, style_step _ _ (EEmpty _ ?l) _ = _ => assert (R2 : read_smap (SMap [] [] None) l = Ok (SMap c s b)) by exact R; revert R2; generalize l end.
  intros l R2 rr. unfold style_step. cbn [on_tag].
  replace (str_eqb t_map (main_tag FCell)) with false by reflexivity. replace (str_eqb t_map t_text) with false by reflexivity.
  replace (str_eqb t_map t_para) with false by reflexivity. rewrite str_eqb_refl, R2. reflexivity.
Qed.
Lemma push_all {A} (l : list A) : forall o, fold_left push_opt l o = match l with [] => o | _ => Some (match o with Some k => k ++ l | None => l end) end.
Proof.
  induction l as [|x l IH]; intros o; [reflexivity|]. cbn [fold_left]. rewrite IH. destruct l, o; cbn; rewrite <- ?app_assoc; reflexivity.
Qed.
Lemma smaps_carry lb stop x m p t ts l : Forall smap_ok l -> forall cs ms, cat_calls smap_calls l = Ok cs ->
  exists d, carries lb stop (style_step FCell) cs d (SBody x m p t ts ms) (SBody x m p t ts (fold_left push_opt l ms)).
Proof.
  induction 1 as [|sm l O _ IH]; intros cs ms H; cbn [cat_calls fold_left] in *.
  - injection H as <-. exists []. apply carries_nil.
  - apply bind_ok in H as (a & A & H). apply bind_ok in H as (b & B & H). injection H as <-.
    destruct (smap_carry lb stop x m p t ts ms sm a O A) as (d1 & C1). destruct (IH b (push_opt ms sm) B) as (d2 & C2). eexists. eapply carries_app; eassumption.
Qed.
Lemma tabs_carry lb stop x m p t ms l : Forall attrs_ok l -> forall ts,
  exists d, carries lb stop (style_step FParagraph) (flat_map (fun a => CEmpty t_tab :: attr_calls a) l) d (SBody x m p t ts ms) (SBody x m p t (fold_left push_opt l ts) ms).
Proof.
  induction 1 as [|a l O _ IH]; intros ts; cbn [flat_map fold_left].
  - exists []. apply carries_nil.
  - destruct (IH (push_opt ts a)) as (d2 & C2). eexists. change (CEmpty t_tab :: attr_calls a ++ ?r) with ((CEmpty t_tab :: attr_calls a) ++ r). eapply carries_app; [|exact C2].
    apply carries_empty; [apply mute_style|name_lit|now apply attr_calls_good|]. intros r. rewrite attrs_of_calls. reflexivity.
Qed.
Lemma paras_carry lb stop x m t ms b : stop <> Some t_para -> stop <> Some t_tabs -> attrs_ok (sb_para b) -> (forall ts, sb_tabs b = Some ts -> Forall attrs_ok ts) ->
  exists d, carries lb stop (style_step FParagraph) (para_calls b) d (SBody x m [] t None ms)
    (SBody x m (sb_para b) t (match sb_para b with [] => None | _ => nonempty (sb_tabs b) end) ms).
Proof.
  intros N1 N2 A T. unfold para_calls. destruct (sb_para b) as [|kv a] eqn:E; cbn [is_nil].
  - exists []. apply carries_nil.
  - destruct (sb_tabs b) as [ts|] eqn:E2.
    + specialize (T ts eq_refl). destruct (tabs_carry lb stop x m (kv :: a) t ms ts T None) as (d & C). rewrite push_all in C.
      replace (match ts with [] => None | _ => Some ts end) with (nonempty (Some ts)) in C by now destruct ts.
      eexists.
      replace (CElem t_para :: attr_calls (kv :: a) ++ CElem t_tabs :: flat_map (fun a => CEmpty t_tab :: attr_calls a) ts ++ [CEnd t_tabs; CEnd t_para])
        with (CElem t_para :: attr_calls (kv :: a) ++ (CElem t_tabs :: [] ++ flat_map (fun a => CEmpty t_tab :: attr_calls a) ts ++ [CEnd t_tabs]) ++ [CEnd t_para]).
      2: { cbn [app]. do 3 f_equal. rewrite <- app_assoc. reflexivity. }
      eapply carries_through; [apply mute_style|name_lit|now apply attr_calls_good|exact N1| | |].
      * eapply carries_through; [apply mute_style|name_lit|constructor|exact N2|exact C| |]; intros r; reflexivity.
      * intros r. rewrite attrs_of_calls. reflexivity.
      * intros r. reflexivity.
    + eexists. apply carries_empty; [apply mute_style|name_lit|now apply attr_calls_good|]. intros r. rewrite attrs_of_calls. reflexivity.
Qed.
Lemma family_dec (a b : family) : {a = b} + {a <> b}.
Proof. decide equality. Defined.
Lemma inner_carry lb tag f at' b cs : (tag = t_style \/ tag = t_default) -> style_ok f b -> style_inner f b = Ok cs ->
  exists d, carries lb (Some tag) (style_step f) cs d (SBody at' [] [] [] None None)
    (SBody at' (sb_main b) (sb_para b) (sb_text b) (match sb_para b with [] => None | _ => nonempty (sb_tabs b) end) (nonempty (sb_maps b))).
Proof.
  intros Ht (K & A0 & A1 & A2 & A3 & Ts & Ms & U1 & U2 & U3) H.
  assert (P1 : Some tag <> Some t_para) by (destruct Ht as [-> | ->]; discriminate).
  assert (P2 : Some tag <> Some t_tabs) by (destruct Ht as [-> | ->]; discriminate).
  assert (Tn : f <> FParagraph -> sb_tabs b = None).
  { intros D. destruct (sb_tabs b) as [ts|]; [|reflexivity]. destruct (Ts ts eq_refl). contradiction. }
  assert (Mn : f <> FCell -> sb_maps b = None).
  { intros D. destruct (sb_maps b) as [ms|]; [|reflexivity]. destruct (Ms ms eq_refl). contradiction. }
  assert (Z : forall l : attrs, match l with [] => None | _ => @nonempty attrs None end = None) by (now intros []).
  destruct (in_dec family_dec f [FCell; FParagraph; FText; FGraphic]) as [J|J].
  - cbn in J. repeat destruct J as [<-|J]; try contradiction; cbn [style_inner] in H.
    + apply bind_ok in H as (m & M & H). injection H as <-. rewrite Tn by discriminate. rewrite Z.
      destruct (main_carry lb FCell (Some tag) at' [] [] [] None None (sb_main b) K eq_refl A1) as (d1 & C1).
      destruct (para_carry lb FCell (Some tag) at' (sb_main b) [] [] None None (sb_para b) eq_refl A2) as (d2 & C2).
      destruct (text_carry lb FCell (Some tag) at' (sb_main b) (sb_para b) [] None None (sb_text b) eq_refl A3) as (d3 & C3).
      assert (exists d4, carries lb (Some tag) (style_step FCell) m d4 (SBody at' (sb_main b) (sb_para b) (sb_text b) None None)
        (SBody at' (sb_main b) (sb_para b) (sb_text b) None (nonempty (sb_maps b)))) as (d4 & C4).
      { destruct (sb_maps b) as [ms|]; [|injection M as <-; exists []; apply carries_nil]. destruct (Ms ms eq_refl) as (_ & O).
        destruct (smaps_carry lb (Some tag) at' (sb_main b) (sb_para b) (sb_text b) None ms O m None M) as (d & C). rewrite push_all in C. exists d. destruct ms; exact C. }
      eexists. eapply carries_app; [exact C1|]. eapply carries_app; [exact C2|]. eapply carries_app; [exact C3|exact C4].
    + injection H as <-. rewrite Mn by discriminate. rewrite U1 by reflexivity.
      destruct (paras_carry lb (Some tag) at' [] [] None b P1 P2 A2 (fun ts E => proj2 (Ts ts E))) as (d1 & C1).
      destruct (text_carry lb FParagraph (Some tag) at' [] (sb_para b) [] (match sb_para b with [] => None | _ => nonempty (sb_tabs b) end) None (sb_text b) eq_refl A3) as (d2 & C2).
      eexists. eapply carries_app; [exact C1|exact C2].
    + injection H as <-. rewrite Mn, Tn, Z by discriminate. rewrite U1, U2 by reflexivity. apply (text_carry lb FText); [reflexivity|exact A3].
    + injection H as <-. rewrite Mn, Tn, Z by discriminate.
      destruct (main_carry lb FGraphic (Some tag) at' [] [] [] None None (sb_main b) K eq_refl A1) as (d1 & C1).
      destruct (para_carry lb FGraphic (Some tag) at' (sb_main b) [] [] None None (sb_para b) eq_refl A2) as (d2 & C2).
      destruct (text_carry lb FGraphic (Some tag) at' (sb_main b) (sb_para b) [] None None (sb_text b) eq_refl A3) as (d3 & C3).
      eexists. eapply carries_app; [exact C1|]. eapply carries_app; [exact C2|exact C3].
  - assert (D : f <> FParagraph /\ f <> FCell /\ uses_main f = true /\ uses_para f = false /\ uses_text f = false /\ style_inner f b = Ok (prop_calls (main_tag f) (sb_main b))).
    { cbn in K, J. repeat destruct K as [<-|K]; try contradiction; try (exfalso; apply J; tauto); repeat split; discriminate. }
    destruct D as (D1 & D2 & D3 & D4 & D5 & D6). rewrite D6 in H. injection H as <-. rewrite (Tn D1), (Mn D2), Z, (U2 D4), (U3 D5). apply (main_carry lb f); assumption.
Qed.

(** ** The element of a style *)

Lemma own_no_name a : filter (fun kv => negb (str_eqb (fst kv) k_name)) (filter kept_attr a) = filter kept_attr a.
Proof.
  induction a as [|kv a IH]; [reflexivity|]. cbn [filter]. destruct (kept_attr kv) eqn:E; [|exact IH]. cbn [filter]. unfold kept_attr in E. apply andb_true_iff in E as (E & _).
  change (lit "style:name") with k_name in E. rewrite E. now rewrite IH.
Qed.
Lemma own_name_fold a v : fold_left (fun v kv => if str_eqb (fst kv) k_name then snd kv else v) (filter kept_attr a) v = v.
Proof.
  induction a as [|kv a IH]; [reflexivity|]. cbn [filter]. destruct (kept_attr kv) eqn:E; [|exact IH]. cbn [fold_left]. unfold kept_attr in E. apply andb_true_iff in E as (E & _).
  change (lit "style:name") with k_name in E. apply negb_true_iff in E. now rewrite E.
Qed.
Lemma own_no_family a o u tag x e b evs : read_style_style (filter kept_attr a) o u tag x e b evs = Ok (b, evs).
Proof.
  induction a as [|[k v] a IH]; [reflexivity|]. cbn [filter]. destruct (kept_attr (k, v)) eqn:E; [|exact IH]. cbn [read_style_style]. unfold kept_attr in E. apply andb_true_iff in E as (_ & E).
  cbn [fst] in E. change (lit "style:family") with k_family in E. apply negb_true_iff in E. now rewrite E.
Qed.
Lemma family_of_name f : In f style_kinds -> family_of (raw (fam_name f)) = Some f.
Proof. intros K. cbn in K. repeat destruct K as [<-|K]; try contradiction; reflexivity. Qed.
Lemma fam_raw_ok f : raw_value_ok (fam_name f).
Proof. apply plain_value. destruct f; cbn; try apply Forall_nil; plain_lit. Qed.
Lemma filter_ok a g : attrs_ok a -> attrs_ok (filter g a).
Proof. intros H. apply Forall_forall. intros x I. apply filter_In in I as (I & _). revert x I. now apply Forall_forall. Qed.
Definition style_item_name (n : str) (u : suse) : str := match u with UDefault => [] | _ => n end.
Lemma style_copy f n u a : copy_style_attr (attrs_of ((match u with UDefault => [] | _ => [CAttrEsc k_name n] end) ++ CAttr k_family (fam_name f) :: attr_calls (filter own_attr a)))
  = (style_item_name n u, (k_family, family_value f) :: filter kept_attr a).
Proof.
  rewrite attrs_of_app. cbn [attrs_of attr_of]. rewrite attrs_of_calls, filter_own. unfold copy_style_attr. f_equal.
  - destruct u; cbn [attrs_of attr_of app fold_left fst snd]; rewrite ?str_eqb_refl; replace (str_eqb k_family k_name) with false by reflexivity; apply own_name_fold.
  - destruct u; cbn [attrs_of attr_of app filter fst snd]; rewrite ?str_eqb_refl; replace (str_eqb k_family k_name) with false by reflexivity; cbn [negb]; rewrite own_no_name, fam_value; reflexivity.
Qed.
Lemma style_empty_inner f b cs : style_ok f b -> style_inner f b = Ok cs -> style_empty f b = true ->
  cs = [] /\ sb_main b = [] /\ sb_para b = [] /\ sb_text b = [] /\ nonempty (sb_maps b) = None.
Proof.
  intros (K & _ & _ & _ & _ & Ts & Ms & U1 & U2 & U3) H E.
  assert (Nil : forall l : attrs, is_nil l = true -> l = []) by (now intros []).
  assert (Mn : f <> FCell -> sb_maps b = None).
  { intros D. destruct (sb_maps b) as [ms|]; [|reflexivity]. destruct (Ms ms eq_refl). contradiction. }
  destruct f; cbn [style_empty style_inner uses_main uses_para uses_text] in *; try rewrite Mn by discriminate;
    repeat match goal with X : _ && _ = true |- _ => apply andb_true_iff in X as (? & ?) | X : is_nil _ = true |- _ => apply Nil in X end;
    repeat match goal with X : ?l = [] |- _ => rewrite X in * end;
    try (specialize (U1 eq_refl)); try (specialize (U2 eq_refl)); try (specialize (U3 eq_refl)); unfold prop_calls, para_calls in *; cbn [is_nil app] in *.
  all: try (injection H as <-; repeat split; auto; fail).
  all: try (repeat match goal with X : ?l = [] |- _ => rewrite X in * end; cbn [is_nil app] in *; injection H as <-; repeat split; auto; fail).
  - destruct (sb_maps b); [discriminate|]. cbn [bind] in H. injection H as <-. auto.
Qed.
Lemma style_carry lb stop st f n u o b cs sb sb' : mute st ->
  (forall x a e r, on_tag x = Some (style_tag u, a, e) -> st sb x r = read_style_style a o u (style_tag u) a e sb r) ->
  style_ok f b -> style_calls f n u b = Ok cs -> add_item f (Named (style_item_name n u) (BStyle o u (style_read f b))) sb = Ok sb' ->
  carries lb stop st cs [opening f (Named n (BStyle o u b))] sb sb'.
Proof.
  intros M St Ok0 H Add. pose proof Ok0 as (K & A0 & _). unfold style_calls in H. apply bind_ok in H as (inner & Hi & H). injection H as <-.
  assert (Ht : style_tag u = t_style \/ style_tag u = t_default) by (destruct u; auto).
  destruct (inner_carry lb (style_tag u) f ((k_family, family_value f) :: filter kept_attr (sb_attr b)) b inner Ht Ok0 Hi) as (d & C).
  set (al := (match u with UDefault => [] | _ => [CAttrEsc k_name n] end) ++ CAttr k_family (fam_name f) :: attr_calls (filter own_attr (sb_attr b))).
  assert (Gal : Forall good_attr al).
  { apply Forall_app. split; [destruct u; repeat (apply Forall_cons; [name_lit|]); constructor|]. apply Forall_cons; [split; [name_lit|apply fam_raw_ok]|]. apply attr_calls_good. now apply filter_ok. }
  assert (Fam : forall e E r, read_style f o u (style_tag u) (attrs_of al) e sb E = Ok (sb', r) -> read_style_style (attrs_of al) o u (style_tag u) (attrs_of al) e sb E = Ok (sb', r)).
  { intros e E r R. unfold al at 1. rewrite attrs_of_app. cbn [attrs_of attr_of]. rewrite attrs_of_calls, filter_own.
    assert (R2 : read_style_style ((k_family, fam_name f) :: filter kept_attr (sb_attr b)) o u (style_tag u) (attrs_of al) e sb E = Ok (sb', r)).
    { cbn [read_style_style]. rewrite str_eqb_refl, family_of_name by exact K. rewrite R. cbn [bind]. apply own_no_family. }
    destruct u; cbn [attrs_of attr_of app]; try exact R2; cbn [read_style_style]; replace (str_eqb k_name k_family) with false by reflexivity; exact R2. }
  assert (Copy : copy_style_attr (attrs_of al) = (style_item_name n u, (k_family, family_value f) :: filter kept_attr (sb_attr b))) by apply style_copy.
  replace [opening f (Named n (BStyle o u b))] with [(style_tag u, attrs_of al)].
  2: { unfold al. rewrite attrs_of_app. cbn [attrs_of attr_of]. rewrite attrs_of_calls, filter_own, fam_value. unfold opening. cbn [nm_body nm_name]. destruct u; reflexivity. }
  replace (CElemIf (negb (style_empty f b)) (style_tag u) :: (match u with UDefault => [] | _ => [CAttrEsc k_name n] end) ++ CAttr k_family (fam_name f) :: attr_calls (filter own_attr (sb_attr b)) ++ inner ++ [CEndIf (negb (style_empty f b)) (style_tag u)])
    with (CElemIf (negb (style_empty f b)) (style_tag u) :: al ++ inner ++ [CEndIf (negb (style_empty f b)) (style_tag u)]).
  2: { unfold al. rewrite <- app_assoc. reflexivity. }
  eapply carries_elem_if; [exact M|destruct u; name_lit|exact Gal|exact C| | |].
  - intros E. apply negb_false_iff in E. now destruct (style_empty_inner f b inner Ok0 Hi E).
  - intros _ E r R. rewrite (St _ _ false) by reflexivity. apply Fam. unfold read_style. rewrite Copy. rewrite R. cbn [bind fst snd]. unfold style_read in Add.
    change (lit "style:family") with k_family in Add. rewrite Add. reflexivity.
  - intros E r. apply negb_false_iff in E. destruct (style_empty_inner f b inner Ok0 Hi E) as (_ & E1 & E2 & E3 & E4).
    rewrite (St _ _ true) by reflexivity. apply Fam. unfold read_style. rewrite Copy. unfold style_read in Add. rewrite E1, E2, E3, E4 in Add.
    change (lit "style:family") with k_family in Add. rewrite Add. reflexivity.
Qed.

(** ** The element of a value format *)

Lemma carries_raw {S} lb stop step n c inner evs l (s s' : S) : mute step -> name_ok n -> Forall good_attr c -> flows lb inner evs -> shows evs l ->
  (forall rest, step s (EStart n (attrs_of c)) (coalesce (evs ++ EEnd n :: EText (nl lb) :: rest)) = Ok (s', coalesce (EText (nl lb) :: rest))) ->
  carries lb stop step (CElem n :: c ++ inner ++ [CEnd n]) [(n, attrs_of c)] s s'.
Proof.
  intros M N G F Sh H. eexists. split; [apply flows_elem; eassumption|]. split; [|eapply shows_elem; exact Sh]. apply passes_sub; [exact M|reflexivity|exact I|exact H].
Qed.
Lemma carries_raw_if {S} lb stop step n c inner evs l (s s' : S) : mute step -> name_ok n -> Forall good_attr c -> flows lb inner evs -> shows evs l ->
  (forall rest, step s (EStart n (attrs_of c)) (coalesce (evs ++ EEnd n :: EText (nl lb) :: rest)) = Ok (s', coalesce (EText (nl lb) :: rest))) ->
  carries lb stop step (CElemIf true n :: c ++ inner ++ [CEndIf true n]) [(n, attrs_of c)] s s'.
Proof.
  intros M N G F Sh H. eexists. split; [apply flows_elem_if; eauto; discriminate|]. split; [|eapply shows_elem; exact Sh]. apply passes_sub; [exact M|reflexivity|exact I|exact H].
Qed.
Definition addc (t : str) (p : part) : part := match t with [] => p | _ => append_content t p end.
Lemma addc_addc a b p : addc b (addc a p) = addc (a ++ b) p.
Proof.
  destruct a as [|x a]; [reflexivity|]. destruct b as [|y b]; [now rewrite app_nil_r|]. cbn [addc app]. unfold append_content. cbn [pt_type pt_attr pt_pos pt_content].
  destruct (pt_content p); cbn; rewrite <- ?app_assoc; reflexivity.
Qed.
Lemma text_reads tag rest t : forall acc p, reads (Some tag) text_step p (coalesce_from acc (esc_split t ++ EEnd tag :: rest)) (Ok (true, addc (acc ++ t) p, coalesce rest)).
Proof.
  assert (D : forall acc p r R, reads (Some tag) text_step (addc acc p) r R -> reads (Some tag) text_step p (emit_text acc ++ r) R).
  { intros [|c acc] p r R H; [exact H|]. intros n L. cbn [emit_text app length] in *. destruct n as [|n]; [inversion L|]. cbn [reading text_step bind]. apply H. lia. }
  induction t as [|c t IH]; intros acc p; cbn [esc_split map app].
  - rewrite coalesce_cons by exact I. apply D. rewrite app_nil_r. intros n L. cbn [length] in L. destruct n as [|n]; [inversion L|]. cbn [reading]. rewrite str_eqb_refl. reflexivity.
  - destruct (entity_of c) as [nm|] eqn:E.
    + rewrite coalesce_cons by exact I. apply D. intros n L. cbn [length] in L. destruct n as [|n]; [inversion L|]. cbn [reading text_step].
      rewrite (entity_named _ _ E). cbn [bind].
      change (append_content [c] (addc acc p)) with (addc [c] (addc acc p)). rewrite addc_addc.
      replace (acc ++ c :: t) with ((acc ++ [c]) ++ t) by (rewrite <- app_assoc; reflexivity). rewrite <- (addc_addc (acc ++ [c]) t). apply (IH []). apply le_S_n. exact L.
    + cbn [coalesce_from]. replace (acc ++ c :: t) with ((acc ++ [c]) ++ t) by (rewrite <- app_assoc; reflexivity). apply IH.
Qed.
Lemma no_refs_esc t : no_refs t -> forall acc r, coalesce_from acc (esc_split t ++ r) = coalesce_from (acc ++ t) r.
Proof.
  induction 1 as [|c t H _ IH]; intros acc r; cbn [esc_split map app]; [now rewrite app_nil_r|]. rewrite H. cbn [coalesce_from]. fold (esc_split t). rewrite IH, <- app_assoc. reflexivity.
Qed.
Lemma mute_format : mute format_step.
Proof. intros s t r. reflexivity. Qed.
Lemma part_known ty : part_of (part_tag ty) = Some ty.
Proof. destruct ty; reflexivity. Qed.
Lemma part_name ty : name_ok (part_tag ty).
Proof. destruct ty; name_lit. Qed.
Lemma format_part s e r ty a em p r' : on_tag e = Some (part_tag ty, a, em) -> read_part ty (part_tag ty) a em r = Ok (p, r') -> format_step s e r = Ok (add_part p s, r').
Proof. intros H R. unfold format_step. rewrite H, part_known, R. reflexivity. Qed.
Lemma part_carry lb stop p s : part_ok lb p -> exists d, carries lb stop format_step (part_calls p) d s (add_part p s).
Proof.
  intros (A & H). destruct p as [ty a pos co]. cbn [pt_type pt_attr pt_pos pt_content] in *.
  assert (G : Forall good_attr (attr_calls a)) by now apply attr_calls_good.
  assert (E0 : pos = None -> co = None -> exists d, carries lb stop format_step (CEmpty (part_tag ty) :: attr_calls a) d s (add_part (Part ty a pos co) s)).
  { intros -> ->. eexists. apply carries_empty; [apply mute_format|apply part_name|exact G|]. intros r. rewrite attrs_of_calls. eapply format_part; reflexivity. }
  assert (T0 : (ty = PTextPart \/ ty = PCurrency \/ ty = PFill) -> pos = None -> co <> Some [] ->
    exists d, carries lb stop format_step (match co with
      | Some (c :: t) => CElemIf true (part_tag ty) :: attr_calls a ++ [CTextEsc (c :: t); CEndIf true (part_tag ty)]
      | _ => CElemIf false (part_tag ty) :: attr_calls a ++ [CEndIf false (part_tag ty)] end) d s (add_part (Part ty a pos co) s)).
  { intros Hty -> Hc. destruct co as [[|c t]|]; [now elim Hc| |].
    - eexists. change [CTextEsc (c :: t); CEndIf true (part_tag ty)] with ([CTextEsc (c :: t)] ++ [CEndIf true (part_tag ty)]).
      eapply carries_raw_if; [apply mute_format|apply part_name|exact G|apply flows_text|apply shows_esc|]. intros rest. rewrite attrs_of_calls.
      eapply format_part; [reflexivity|]. unfold read_part.
      assert (St : (match ty with PTextPart | PCurrency | PFill => text_step | PNumber => number_step | _ => skip_step end) = text_step) by (destruct Hty as [-> |[-> | ->]]; reflexivity).
      rewrite St. pose proof (reads_run _ _ _ _ _ (text_reads (part_tag ty) (EText (nl lb) :: rest) (c :: t) [] (Part ty a None None))) as R.
      unfold coalesce at 1 2. rewrite R. reflexivity.
    - eexists. change [CEndIf false (part_tag ty)] with ([] ++ [CEndIf false (part_tag ty)]).
      eapply (carries_elem_if lb stop format_step false); [apply mute_format|apply part_name|exact G|apply (carries_nil lb _ format_step (FBody [] [] [] None))|auto|discriminate|].
      intros _ r. rewrite attrs_of_calls. eapply format_part; reflexivity. }
  destruct ty; cbn [part_calls pt_type pt_attr pt_pos pt_content] in *; try (destruct H; now apply E0); try (destruct H; apply T0; auto; fail).
  destruct pos as [z|]; [|now apply E0]. destruct H as (-> & Hz & Hco).
  assert (Pz : parse_i32 (raw (show_Z z)) = Ok z).
  { unfold raw. rewrite escape_plain by apply show_Z_plain. apply (proj1 (proj2 (proj2 C28_roundtrip))). exact Hz. }
  assert (Pos : forall q, position_attrs q [(lit "number:position", show_Z z)] = Ok (Part (pt_type q) (pt_attr q) (Some z) (pt_content q))).
  { intros q. cbn [position_attrs]. rewrite str_eqb_refl, Pz. reflexivity. }
  assert (Gz : Forall good_attr [CAttrEsc (lit "number:position") (show_Z z)]) by (apply Forall_cons; [name_lit|constructor]).
  assert (K1 : str_eqb t_embedded (part_tag PNumber) = false) by reflexivity.
  eexists. destruct co as [t|].
  - destruct Hco as (Tn & Tr).
    eapply carries_raw with (evs := EStart t_embedded [(lit "number:position", show_Z z)] :: esc_split t ++ [EEnd t_embedded; EText (nl false)]);
      [apply mute_format|apply (part_name PNumber)|exact G| | |].
    + exact (flows_elem false t_embedded [CAttrEsc (lit "number:position") (show_Z z)] [CTextEsc t] (esc_split t) ltac:(name_lit) Gz (flows_text false t)).
    + eapply shows_elem. apply shows_esc.
    + intros rest. rewrite attrs_of_calls. eapply (format_part s _ _ PNumber); [reflexivity|]. unfold read_part. cbn [app]. rewrite <- app_assoc. cbn [app].
      assert (E : coalesce (EStart t_embedded [(lit "number:position", show_Z z)] :: esc_split t ++ EEnd t_embedded :: EText (nl false) :: EEnd (part_tag PNumber) :: EText (nl false) :: rest)
        = EStart t_embedded [(lit "number:position", show_Z z)] :: EText t :: EEnd t_embedded :: EEnd (part_tag PNumber) :: coalesce (EText (nl false) :: rest)).
      { unfold coalesce. rewrite coalesce_cons by exact I. rewrite (no_refs_esc t Tr). cbn [app]. rewrite coalesce_cons by exact I. destruct t; [now elim Tn|]. cbn [emit_text app coalesce_from nl]. reflexivity. }
      rewrite E. cbn [length reading number_step]. rewrite str_eqb_refl, Pos. cbn [bind reading number_step pt_type pt_attr pt_pos pt_content]. rewrite K1. cbn [bind reading]. rewrite str_eqb_refl. reflexivity.
  - eapply carries_raw with (evs := [EEmpty t_embedded [(lit "number:position", show_Z z)]; EText (nl false)]); [apply mute_format|apply (part_name PNumber)|exact G| | |].
    + exact (flows_empty false t_embedded _ ltac:(name_lit) Gz).
    + apply shows_empty.
    + intros rest. rewrite attrs_of_calls. eapply (format_part s _ _ PNumber); [reflexivity|]. unfold read_part. cbn [app].
      unfold coalesce. rewrite coalesce_cons by exact I. cbn [emit_text app coalesce_from nl].
      cbn [length reading number_step]. rewrite str_eqb_refl, Pos. cbn [bind reading]. rewrite str_eqb_refl. reflexivity.
Qed.
Lemma copy_named n a : ~ In k_name (map fst a) -> copy_style_attr ((k_name, n) :: a) = (n, a).
Proof.
  intros N. unfold copy_style_attr. cbn [fold_left filter fst snd]. rewrite str_eqb_refl. cbn [negb].
  assert (F : forall kv, In kv a -> str_eqb (fst kv) k_name = false).
  { intros kv I. apply str_eqb_neq. intros E. apply N. rewrite <- E. now apply in_map. }
  clear N. f_equal.
  - induction a as [|kv a IH]; [reflexivity|]. cbn [fold_left]. rewrite F by now left. apply IH. intros x I. apply F. now right.
  - induction a as [|kv a IH]; [reflexivity|]. cbn [filter]. rewrite F by now left. cbn [negb]. f_equal. apply IH. intros x I. apply F. now right.
Qed.
Lemma parts_carry lb stop l : Forall (part_ok lb) l -> forall x t ps ms, exists d, carries lb stop format_step (flat_map part_calls l) d (FBody x t ps ms) (FBody x t (ps ++ l) ms).
Proof.
  induction 1 as [|p l H _ IH]; intros x t ps ms; cbn [flat_map].
  - rewrite app_nil_r. exists []. apply carries_nil.
  - destruct (part_carry lb stop p (FBody x t ps ms) H) as (d1 & C1). destruct (IH x t (ps ++ [p]) ms) as (d2 & C2). rewrite <- app_assoc in C2. eexists. eapply carries_app; [exact C1|exact C2].
Qed.
Lemma vmaps_carry lb stop l : forall x t ps ms, exists d, carries lb stop format_step
  (flat_map (fun m => [CEmpty t_map; CAttrEsc (lit "style:condition") (fst m); CAttrEsc (lit "style:apply-style-name") (snd m)]) l) d (FBody x t ps ms) (FBody x t ps (fold_left push_opt l ms)).
Proof.
  induction l as [|[c n] l IH]; intros x t ps ms; cbn [flat_map fold_left].
  - exists []. apply carries_nil.
  - destruct (IH x t ps (push_opt ms (c, n))) as (d2 & C2). eexists. eapply carries_app; [|exact C2].
    apply carries_empty; [apply mute_format|name_lit|repeat (apply Forall_cons; [name_lit|]); constructor|]. intros r. reflexivity.
Qed.
Lemma format_name f : In f format_kinds -> name_ok (fmt_tag f) /\ format_of (fmt_tag f) = Some f.
Proof. intros K. cbn in K. repeat destruct K as [<-|K]; try contradiction; (split; [name_lit|reflexivity]). Qed.
Lemma format_carry lb stop st f n u u' o o' b sb sb' : mute st ->
  (forall x a e r, on_tag x = Some (fmt_tag f, a, e) -> st sb x r = read_format f o u (fmt_tag f) a sb r) ->
  format_ok lb f b -> add_item f (Named n (BFormat o u (format_read b))) sb = Ok sb' ->
  carries lb stop st (format_calls f n b) [opening f (Named n (BFormat o' u' b))] sb sb'.
Proof.
  intros M St (K & A & Nn & At & Ps) Add. destruct (format_name f K) as (Nt & _). unfold format_calls, opening. cbn [nm_body nm_name]. rewrite <- (fmt_element f).
  change (lit "style:name") with k_name in *.
  assert (Gal : Forall good_attr (CAttrEsc k_name n :: attr_calls (fb_attr b))) by (apply Forall_cons; [name_lit|now apply attr_calls_good]).
  assert (Tx : exists d, carries lb (Some (fmt_tag f)) format_step (prop_calls t_text (fb_text b)) d (FBody (fb_attr b) [] [] None) (FBody (fb_attr b) (fb_text b) [] None)).
  { unfold prop_calls. destruct (fb_text b) as [|kv a] eqn:E; cbn [is_nil]; [exists []; apply carries_nil|]. eexists.
    apply carries_empty; [apply mute_format|name_lit|now apply attr_calls_good|]. intros r. rewrite attrs_of_calls. reflexivity. }
  destruct Tx as (d1 & C1). destruct (parts_carry lb (Some (fmt_tag f)) (fb_parts b) Ps (fb_attr b) (fb_text b) [] None) as (d2 & C2).
  assert (Mp : exists d, carries lb (Some (fmt_tag f)) format_step (match fb_maps b with
      | Some l => flat_map (fun m => [CEmpty t_map; CAttrEsc (lit "style:condition") (fst m); CAttrEsc (lit "style:apply-style-name") (snd m)]) l | None => [] end) d
      (FBody (fb_attr b) (fb_text b) (fb_parts b) None) (format_read b)).
  { unfold format_read. destruct (fb_maps b) as [l|]; [|exists []; apply carries_nil].
    destruct (vmaps_carry lb (Some (fmt_tag f)) l (fb_attr b) (fb_text b) (fb_parts b) None) as (d & C). rewrite push_all in C. exists d. destruct l; exact C. }
  destruct Mp as (d3 & C3). pose proof (carries_app _ _ _ _ _ _ _ _ _ _ C1 (carries_app _ _ _ _ _ _ _ _ _ _ C2 C3)) as C. clear C1 C2 C3. cbn [app] in C.
  replace (k_name, n) with (k_name, n) by reflexivity.
  replace ((k_name, n) :: fb_attr b) with (attrs_of (CAttrEsc k_name n :: attr_calls (fb_attr b))) by (cbn [attrs_of attr_of]; now rewrite attrs_of_calls).
  match goal with |- carries _ _ _ ?cs _ _ _ => match type of C with carries _ _ _ ?inner _ _ _ =>
    replace cs with (CElem (fmt_tag f) :: (CAttrEsc k_name n :: attr_calls (fb_attr b)) ++ inner ++ [CEnd (fmt_tag f)]) end end.
  2: { cbn [app]. rewrite <- !app_assoc. reflexivity. }
  eapply carries_elem; [exact M|exact Nt|exact Gal|exact C|]. intros E r R. rewrite (St _ _ false) by reflexivity. unfold read_format. cbn [attrs_of attr_of]. rewrite attrs_of_calls, copy_named by exact Nn.
  rewrite R. cbn [bind fst snd]. rewrite Add. reflexivity.
Qed.

(** ** The elements of page layouts *)

Lemma mute_page : mute page_step.
Proof. intros [[[us p h f] hd] ft] t r. reflexivity. Qed.
Lemma page_carry lb stop st n b sb sb' : mute st -> (forall x a e r, on_tag x = Some (t_page, a, e) -> st sb x r = read_page a sb r) -> page_ok b ->
  add_item FPage (Named n (BPage b)) sb = Ok sb' -> carries lb stop st (page_calls n b) [opening FPage (Named n (BPage b))] sb sb'.
Proof.
  intros M St (A1 & A2 & A3) Add. destruct b as [us p h f]. unfold page_calls, opening. cbn [nm_body nm_name pg_usage pg_props pg_header pg_footer] in *. change (lit "style:name") with k_name. change (lit "style:page-layout") with t_page.
  set (al := CAttrEsc k_name n :: match us with Some u => [CAttrEsc (lit "style:page-usage") u] | None => [] end).
  assert (Gal : Forall good_attr al) by (apply Forall_cons; [name_lit|destruct us; repeat (apply Forall_cons; [name_lit|]); constructor]).
  assert (P1 : exists d, carries lb (Some t_page) page_step (prop_calls t_page_props p) d (PBody us [] [] [], false, false) (PBody us p [] [], false, false)).
  { unfold prop_calls. destruct p as [|kv a]; cbn [is_nil]; [exists []; apply carries_nil|]. eexists.
    apply carries_empty; [apply mute_page|name_lit|now apply attr_calls_good|]. intros r. rewrite attrs_of_calls. reflexivity. }
  assert (P2 : exists d, carries lb (Some t_page) page_step (CElem t_header_style :: [] ++ (CEmpty t_hf_props :: attr_calls h) ++ [CEnd t_header_style]) d
    (PBody us p [] [], false, false) (PBody us p h [], false, false)).
  { eexists. eapply carries_through with (s1 := (PBody us p [] [], true, false)) (s2 := (PBody us p h [], true, false)); [apply mute_page|name_lit|constructor|discriminate| | |].
    - apply carries_empty; [apply mute_page|name_lit|now apply attr_calls_good|]. intros r. rewrite attrs_of_calls. reflexivity.
    - reflexivity.
    - reflexivity. }
  assert (P3 : exists d, carries lb (Some t_page) page_step (CElem t_footer_style :: [] ++ (CEmpty t_hf_props :: attr_calls f) ++ [CEnd t_footer_style]) d
    (PBody us p h [], false, false) (PBody us p h f, false, false)).
  { eexists. eapply carries_through with (s1 := (PBody us p h [], false, true)) (s2 := (PBody us p h f, false, true)); [apply mute_page|name_lit|constructor|discriminate| | |].
    - apply carries_empty; [apply mute_page|name_lit|now apply attr_calls_good|]. intros r. rewrite attrs_of_calls. reflexivity.
    - reflexivity.
    - reflexivity. }
  destruct P1 as (d1 & C1). destruct P2 as (d2 & C2). destruct P3 as (d3 & C3). pose proof (carries_app _ _ _ _ _ _ _ _ _ _ C1 (carries_app _ _ _ _ _ _ _ _ _ _ C2 C3)) as C. clear C1 C2 C3.
  replace ((k_name, n) :: match us with Some u => [(lit "style:page-usage", u)] | None => [] end) with (attrs_of al) by (unfold al; destruct us; reflexivity).
  match goal with |- carries _ _ _ ?cs _ _ _ => match type of C with carries _ _ _ ?inner _ _ _ =>
    replace cs with (CElem t_page :: al ++ inner ++ [CEnd t_page]) end end.
  2: { unfold al. nf_app. reflexivity. }
  eapply carries_elem; [exact M|name_lit|exact Gal|exact C|]. intros E r R. rewrite (St _ _ false) by reflexivity. unfold read_page.
  replace (fold_left page_attr (attrs_of al) ([], PBody None [] [] [])) with (n, PBody us [] [] []) by (unfold al; destruct us; reflexivity).
  rewrite R. cbn [bind fst snd]. rewrite Add. reflexivity.
Qed.

(** ** Headers, footers and master pages *)

Lemma mute_hf : mute hf_step.
Proof. intros [[d le ce ri co] tc] t r. reflexivity. Qed.
Lemma wrap_append new old : wrap_text (append_text new old) = wrap_text old ++ wrap_text new.
Proof. now destruct old. Qed.
Lemma para_reads super rest t : forall acc cur,
  para_loop super [] (pt cur) [] (coalesce_from acc (esc_split t ++ EEnd super :: rest)) = Ok (tt_ (cur ++ acc ++ t), coalesce rest).
Proof.
  assert (Em : forall acc cur evs, para_loop super [] (pt cur) [] (emit_text acc ++ evs) = para_loop super [] (pt (cur ++ acc)) [] evs).
  { intros acc cur evs. destruct acc as [|c acc]; [now rewrite app_nil_r|]. cbn [emit_text app para_loop para_step bind]. now rewrite pt_text by discriminate. }
  induction t as [|c t IH]; intros acc cur.
  - cbn [esc_split map app]. rewrite coalesce_cons by exact I. rewrite Em, app_nil_r. cbn [para_loop para_step]. rewrite str_eqb_refl. cbn [bind]. now destruct (cur ++ acc).
  - unfold esc_split. cbn [map app]. fold (esc_split t). destruct (entity_of c) as [n|] eqn:E.
    + rewrite coalesce_cons by exact I. rewrite Em. cbn [para_loop para_step]. rewrite (entity_named c n E). cbn [bind]. rewrite pt_text by discriminate.
      fold (coalesce (esc_split t ++ EEnd super :: rest)). unfold coalesce. rewrite IH. cbn [app]. rewrite <- !app_assoc. reflexivity.
    + cbn [coalesce_from]. rewrite IH. rewrite <- !app_assoc. reflexivity.
Qed.
Lemma text_p_carry lb stop d le ce ri co tc t : t <> [] ->
  exists l tc', carries lb stop hf_step (write_node (text_p t)) l (HF d le ce ri co, tc) (HF d le ce ri co, tc') /\ wrap_text tc' = wrap_text tc ++ [text_p t].
Proof.
  intros T. exists [(t_p, [])], (append_text (TcText t) tc). split; [|apply wrap_append].
  change (write_node (text_p t)) with (CElemIf true t_p :: [] ++ [CTextEsc t] ++ [CEndIf true t_p]).
  change (t_p, @nil (str * str)) with (t_p, attrs_of []).
  eapply carries_raw_if; [apply mute_hf|name_lit|constructor|apply flows_text|apply shows_esc|]. intros rest.
  pose proof (para_reads t_p (EText (nl lb) :: rest) t [] []) as P. cbn [app] in P. change (pt []) with PEmpty in P.
  replace (tt_ t) with (TcText t) in P by (now destruct t). revert P. unfold coalesce at 2. generalize (coalesce_from [] (esc_split t ++ EEnd t_p :: EText (nl lb) :: rest)). intros E P.
  unfold hf_step. cbn [attrs_of on_tag].
  replace (str_eqb t_p t_left) with false by reflexivity. replace (str_eqb t_p t_center) with false by reflexivity. replace (str_eqb t_p t_right) with false by reflexivity.
  rewrite str_eqb_refl. cbn [orb]. unfold read_text_or_tag. rewrite P. reflexivity.
Qed.
Lemma content_carry lb stop d le ce ri co c : Forall (fun x => exists t, x = text_p t /\ t <> []) c -> forall tc,
  exists l tc', carries lb stop hf_step (flat_map write_node c) l (HF d le ce ri co, tc) (HF d le ce ri co, tc') /\ wrap_text tc' = wrap_text tc ++ c.
Proof.
  induction 1 as [|x c (t & -> & T) _ IH]; intros tc; cbn [flat_map].
  - exists [], tc. split; [apply carries_nil|now rewrite app_nil_r].
  - destruct (text_p_carry lb stop d le ce ri co tc t T) as (l1 & tc1 & C1 & W1). destruct (IH tc1) as (l2 & tc2 & C2 & W2).
    eexists. exists tc2. split; [eapply carries_app; eassumption|]. rewrite W2, W1, <- app_assoc. reflexivity.
Qed.
(** Elements read as a tree, with the texts between them all empty. *)
Lemma into_same l : Forall is_tag l -> forall c, merge_text (map norm c) = map norm l -> exists v, into_vec c = Ok v /\ map norm v = map norm l.
Proof.
  assert (H : forall c l, Forall is_tag l -> merge_text (map norm c) = map norm l -> exists v, into_vec c = Ok v /\ map norm v = map norm l).
  { induction c as [|x c IH]; intros m T E.
    - exists []. auto.
    - cbn [map] in E. unfold merge_text in E. cbn [fold_right] in E. fold (merge_text (map norm c)) in E. destruct x as [t|n a k].
      + cbn [norm mcons] in E. assert (NT : forall u r, map norm m <> XText u :: r).
        { intros u r Q. destruct T as [|y m Ty _]; [discriminate|]. destruct y; [contradiction|]. discriminate. }
        destruct (merge_text (map norm c)) as [|[u|] r] eqn:Q; [| |].
        * destruct t; [|symmetry in E; now apply NT in E]. exact (IH m T E).
        * symmetry in E. now apply NT in E.
        * destruct t; [|symmetry in E; now apply NT in E]. exact (IH m T E).
      + cbn [norm mcons] in E. destruct m as [|y m]; [discriminate|]. inversion T; subst. cbn [map] in E.
        assert (Q : merge_text (map norm c) = map norm m) by (injection E as _ Q; exact Q).
        assert (Q0 : norm (XTag n a k) = norm y) by (cbn [norm]; injection E as Q0 _; exact Q0).
        destruct (IH m ltac:(assumption) Q) as (v & V & W). cbn [into_vec]. rewrite V. exists (XTag n a k :: v). split; [reflexivity|]. cbn [map]. rewrite W. f_equal. exact Q0. }
  intros T c. now apply H.
Qed.
Lemma region_read tag c l : c = false -> Forall (fun x => c = false /\ is_tag x /\ names_ok x /\ lacks tag x) l -> l <> [] -> forall rest,
  exists x v, read_xml tag [] false (coalesce (flat_map (node_events false) l ++ EEnd tag :: EText (nl false) :: rest)) = Ok (x, coalesce (EText (nl false) :: rest))
    /\ into_vec (children x) = Ok v /\ map norm v = map norm l.
Proof.
  intros _ R Ne rest.
  assert (U : root_name_unique tag l) by (eapply Forall_impl; [|exact R]; intros ? (_ & _ & _ & ?); assumption).
  assert (Tg : Forall is_tag l) by (eapply Forall_impl; [|exact R]; intros ? (_ & ? & _); assumption).
  destruct (read_tree tag [] l rest U) as (t & T & N).
  destruct l as [|y l]; [now elim Ne|]. cbn [node_events] in T. revert T. cbn [app]. rewrite <- app_assoc. cbn [app].
  unfold coalesce at 1. rewrite coalesce_cons by exact I. cbn [emit_text app read_tag].
  intros T. destruct t as [|n a k]; [discriminate|]. cbn [norm] in N.
  destruct (into_same (y :: l) Tg k) as (v & V & W).
  { assert (Q : merge_text (map norm k) = merge_text (map norm (y :: l))) by (injection N as _ _ Q; exact Q). rewrite Q. clear -Tg.
    induction Tg as [|z m Tz _ IH]; [reflexivity|]. cbn [map]. unfold merge_text. cbn [fold_right]. fold (merge_text (map norm m)). rewrite IH. now destruct z. }
  exists (XTag n a k), v. split; [exact T|]. auto.
Qed.
Lemma coalesce_end n A : forall acc, exists P, forall R, coalesce_from acc (A ++ EEnd n :: R) = P ++ EEnd n :: coalesce R.
Proof.
  induction A as [|e A IH]; intros acc.
  - exists (emit_text acc). intros R. cbn [app]. now rewrite coalesce_cons.
  - destruct e; try (destruct (IH []) as (P & H); eexists (emit_text acc ++ _ :: P); intros R; cbn [app]; rewrite coalesce_cons by exact I; rewrite <- app_assoc; cbn [app];
      do 2 f_equal; apply H).
    destruct (IH (acc ++ t)) as (P & H). exists P. intros R. cbn [app coalesce_from]. apply H.
Qed.
Lemma loop_prefix super P : forall st x r, read_xml_loop super st (P ++ [EEnd super]) = Ok (x, r) -> forall Q, exists r', read_xml_loop super st (P ++ EEnd super :: Q) = Ok (x, r').
Proof.
  induction P as [|e P IH]; intros st x r H Q; cbn [app read_xml_loop] in *.
  - rewrite str_eqb_refl in *. destruct st; [discriminate|]. injection H as <- _. eauto.
  - destruct e; eauto; try (apply bind_ok in H as (s & E & H); rewrite E; cbn [bind]; eauto; fail).
    + destruct (str_eqb n super); [destruct st; [discriminate|]; injection H as <- _; eauto|]. destruct st; [discriminate|]. apply bind_ok in H as (s & E & H). rewrite E. cbn [bind]. eauto.
    + apply bind_ok in H as (v & E & H). rewrite E. cbn [bind]. apply bind_ok in H as (s & E2 & H). rewrite E2. cbn [bind]. eauto.
Qed.
Lemma region_reads tag l : Forall (fun x => is_tag x /\ names_ok x /\ lacks tag x) l -> l <> [] ->
  exists x v, into_vec (children x) = Ok v /\ map norm v = map norm l
    /\ forall rest, read_xml tag [] false (coalesce (flat_map (node_events false) l ++ EEnd tag :: EText (nl false) :: rest)) = Ok (x, coalesce (EText (nl false) :: rest)).
Proof.
  intros R Ne. assert (R' : Forall (fun x => false = false /\ is_tag x /\ names_ok x /\ lacks tag x) l) by (eapply Forall_impl; [|exact R]; intros ? ?; split; [reflexivity|assumption]).
  destruct (region_read tag false l eq_refl R' Ne []) as (x & v & X & V & W). exists x, v. split; [exact V|]. split; [exact W|]. intros rest.
  destruct (region_read tag false l eq_refl R' Ne rest) as (x2 & v2 & X2 & _ & _). rewrite X2. f_equal. f_equal.
  unfold read_xml in X, X2. unfold coalesce at 1 in X. unfold coalesce at 1 in X2. destruct (coalesce_end tag (flat_map (node_events false) l) []) as (P & C). rewrite C in X, X2.
  change (coalesce [EText (nl false)]) with (@nil event) in X.
  destruct (loop_prefix _ _ _ _ _ X (coalesce (EText (nl false) :: rest))) as (r' & Y). rewrite Y in X2. congruence.
Qed.
Definition put_region (tag : str) (v : list xnode) (h : hfoot) : hfoot :=
  let '(HF d le ce ri co) := h in if str_eqb tag t_left then HF d v ce ri co else if str_eqb tag t_center then HF d le v ri co else HF d le ce v co.
Lemma region_carry lb stop tag l h tc : In tag [t_left; t_center; t_right] -> region_ok lb tag l ->
  exists d v, carries lb stop hf_step (region_calls tag l) d (h, tc) (if is_nil l then h else put_region tag v h, tc) /\ map norm v = map norm l.
Proof.
  intros T R. unfold region_calls. destruct l as [|y l]; [exists [], []; split; [apply carries_nil|reflexivity]|]. cbn [is_nil].
  assert (L : lb = false) by (inversion R; tauto). subst lb.
  assert (R2 : Forall (fun x => is_tag x /\ names_ok x /\ lacks tag x) (y :: l)) by (eapply Forall_impl; [|exact R]; intros ? (_ & H); exact H).
  destruct (region_reads tag (y :: l) R2 ltac:(discriminate)) as (x & v & V & W & X). destruct (shows_nodes false (y :: l)) as (d & D).
  exists [(tag, attrs_of [])], v. split; [|exact W].
  change (CElem tag :: flat_map write_node (y :: l) ++ [CEnd tag]) with (CElem tag :: [] ++ flat_map write_node (y :: l) ++ [CEnd tag]).
  eapply carries_raw; [apply mute_hf| |constructor|apply flows_nodes; eapply Forall_impl; [|exact R2]; intros ? (_ & H & _); exact H|exact D|].
  - destruct T as [<-|[<-|[<-|[]]]]; name_lit.
  - intros rest. specialize (X rest). revert X. generalize (coalesce (flat_map (node_events false) (y :: l) ++ EEnd tag :: EText (nl false) :: rest)). intros E X.
    unfold hf_step. cbn [attrs_of on_tag]. destruct h as [dd le ce ri co]. unfold put_region.
    destruct T as [<-|[<-|[<-|[]]]].
    + rewrite str_eqb_refl, X. cbn [bind]. rewrite V. reflexivity.
    + replace (str_eqb t_center t_left) with false by reflexivity. rewrite str_eqb_refl, X. cbn [bind]. rewrite V. reflexivity.
    + replace (str_eqb t_right t_left) with false by reflexivity. replace (str_eqb t_right t_center) with false by reflexivity. rewrite str_eqb_refl, X. cbn [bind]. rewrite V. reflexivity.
Qed.
Lemma regions_carry lb stop h d0 : hf_ok lb h -> exists d h' tc, carries lb stop hf_step (regions_calls h) d (HF d0 [] [] [] [], TcEmpty) (h', tc)
  /\ hf_display h' = d0 /\ map norm (hf_left h') = map norm (hf_left h) /\ map norm (hf_center h') = map norm (hf_center h)
  /\ map norm (hf_right h') = map norm (hf_right h) /\ wrap_text tc = hf_content h.
Proof.
  intros (L & C & R & T). change (lit "style:region-left") with t_left in L. change (lit "style:region-center") with t_center in C. change (lit "style:region-right") with t_right in R.
  unfold regions_calls.
  destruct (region_carry lb stop t_left (hf_left h) (HF d0 [] [] [] []) TcEmpty ltac:(cbn; auto) L) as (d1 & v1 & C1 & N1).
  assert (E1 : (if is_nil (hf_left h) then HF d0 [] [] [] [] else put_region t_left v1 (HF d0 [] [] [] [])) = HF d0 (if is_nil (hf_left h) then [] else v1) [] [] []).
  { destruct (is_nil (hf_left h)); reflexivity. } rewrite E1 in C1. clear E1.
  match type of C1 with carries _ _ _ _ _ _ (?h1, _) => destruct (region_carry lb stop t_center (hf_center h) h1 TcEmpty ltac:(cbn; auto) C) as (d2 & v2 & C2 & N2) end.
  match type of C2 with carries _ _ _ _ _ (HF _ ?a _ _ _, _) (?z, _) => assert (E2 : z = HF d0 a (if is_nil (hf_center h) then [] else v2) [] []) by (destruct (is_nil (hf_center h)); reflexivity); rewrite E2 in C2; clear E2 end.
  match type of C2 with carries _ _ _ _ _ _ (?h1, _) => destruct (region_carry lb stop t_right (hf_right h) h1 TcEmpty ltac:(cbn; auto) R) as (d3 & v3 & C3 & N3) end.
  match type of C3 with carries _ _ _ _ _ (HF _ ?a ?b _ _, _) (?z, _) => assert (E3 : z = HF d0 a b (if is_nil (hf_right h) then [] else v3) []) by (destruct (is_nil (hf_right h)); reflexivity); rewrite E3 in C3; clear E3 end.
  match type of C3 with carries _ _ _ _ _ _ (HF _ ?a ?b ?c _, _) => destruct (content_carry lb stop d0 a b c [] (hf_content h) T TcEmpty) as (d4 & tc & C4 & W) end.
  do 3 eexists. split; [eapply carries_app; [exact C1|eapply carries_app; [exact C2|eapply carries_app; [exact C3|exact C4]]]|].
  cbn [hf_display hf_left hf_center hf_right]. split; [reflexivity|]. split; [destruct (hf_left h); [reflexivity|exact N1]|]. split; [destruct (hf_center h); [reflexivity|exact N2]|].
  split; [destruct (hf_right h); [reflexivity|exact N3]|exact W].
Qed.
Lemma hf_empty_nil h : hf_empty h = is_nil (hf_left h ++ hf_center h ++ hf_right h ++ hf_content h).
Proof. unfold hf_empty. destruct (hf_left h), (hf_center h), (hf_right h), (hf_content h); reflexivity. Qed.
Lemma hslot_tag s : hslot_of (hf_tag s) = Some s.
Proof. destruct s; reflexivity. Qed.
Lemma mute_master : mute master_step.
Proof. intros s t r. reflexivity. Qed.
Lemma hf_carry lb stop s h m : hf_ok lb h -> mp_hf m s = hf_default -> exists d h', carries lb stop master_step (hf_calls s h) d m (put_hf s h' m) /\ hf_same h h'.
Proof.
  intros O Df. unfold hf_calls, hf_same. rewrite hf_empty_nil. destruct (is_nil (hf_left h ++ hf_center h ++ hf_right h ++ hf_content h)) eqn:E.
  - assert (E' : hf_empty h = true) by (now rewrite hf_empty_nil).
    assert (Rc : regions_calls h = []).
    { unfold hf_empty in E'. unfold regions_calls, region_calls. destruct (hf_left h), (hf_center h), (hf_right h), (hf_content h); try discriminate E'. reflexivity. }
    assert (Pm : put_hf s hf_default m = m) by (destruct m, s; cbn in Df; subst; reflexivity).
    eexists. exists hf_default. split; [|reflexivity]. rewrite Pm, Rc. cbn [negb].
    eapply carries_elem_if with (t := tt) (t' := tt) (step' := fun _ _ r => Ok (tt, r)); [apply mute_master| | |apply carries_nil|reflexivity|discriminate|].
    + destruct s; name_lit.
    + match goal with |- Forall _ (if ?b then _ else _) => destruct b end; [apply Forall_cons; [split; [name_lit|plain_lit]|constructor]|constructor].
    + intros _ r. reflexivity.
  - destruct (regions_carry lb (Some (hf_tag s)) h (hf_display h) O) as (d & h' & tc & C & H1 & H2 & H3 & H4 & H5).
    eexists. exists (HF (hf_display h) (hf_left h') (hf_center h') (hf_right h') (wrap_text tc)). cbn [negb hf_display hf_left hf_center hf_right hf_content].
    split; [|rewrite H5; auto].
    replace (match s with HHeader | HFooter => negb (hf_display h) | _ => negb (hf_display h) || false end) with (negb (hf_display h)) by (destruct s, (hf_display h); reflexivity).
    eapply carries_elem_if; [apply mute_master| | |exact C|discriminate| |discriminate].
    + destruct s; name_lit.
    + destruct (hf_display h); [constructor|apply Forall_cons; [split; [name_lit|plain_lit]|constructor]].
    + intros _ E0 r R. cbn [master_step]. rewrite hslot_tag. unfold read_hf.
      replace (hf_attrs hf_new (attrs_of (if negb (hf_display h) then [CAttr (lit "style:display") (lit "false")] else []))) with (Ok (HF (hf_display h) [] [] [] [])) by (destruct (hf_display h); reflexivity).
      cbn [bind]. rewrite R. destruct h' as [dd a b c e]. cbn in H1. subst dd. reflexivity.
Qed.
Lemma slots_carry lb stop d p x b : master_ok lb b -> exists l b', carries lb stop master_step (flat_map (fun s => hf_calls s (mp_hf b s)) all_hslots) l
  (MBody d p x hf_default hf_default hf_default hf_default hf_default hf_default) b' /\ mp_display b' = d /\ mp_page b' = p /\ mp_next b' = x
  /\ forall s, hf_same (mp_hf b s) (mp_hf b' s).
Proof.
  intros O. unfold all_hslots. cbn [flat_map]. 
  destruct (hf_carry lb stop HHeader _ (MBody d p x hf_default hf_default hf_default hf_default hf_default hf_default) (O HHeader) eq_refl) as (l1 & h1 & C1 & S1). cbn [put_hf] in C1.
  destruct (hf_carry lb stop HHeaderFirst _ (MBody d p x h1 hf_default hf_default hf_default hf_default hf_default) (O HHeaderFirst) eq_refl) as (l2 & h2 & C2 & S2). cbn [put_hf] in C2.
  destruct (hf_carry lb stop HHeaderLeft _ (MBody d p x h1 h2 hf_default hf_default hf_default hf_default) (O HHeaderLeft) eq_refl) as (l3 & h3 & C3 & S3). cbn [put_hf] in C3.
  destruct (hf_carry lb stop HFooter _ (MBody d p x h1 h2 h3 hf_default hf_default hf_default) (O HFooter) eq_refl) as (l4 & h4 & C4 & S4). cbn [put_hf] in C4.
  destruct (hf_carry lb stop HFooterFirst _ (MBody d p x h1 h2 h3 h4 hf_default hf_default) (O HFooterFirst) eq_refl) as (l5 & h5 & C5 & S5). cbn [put_hf] in C5.
  destruct (hf_carry lb stop HFooterLeft _ (MBody d p x h1 h2 h3 h4 h5 hf_default) (O HFooterLeft) eq_refl) as (l6 & h6 & C6 & S6). cbn [put_hf] in C6.
  eexists. exists (MBody d p x h1 h2 h3 h4 h5 h6). split.
  - eapply carries_app; [exact C1|]. eapply carries_app; [exact C2|]. eapply carries_app; [exact C3|]. eapply carries_app; [exact C4|]. eapply carries_app; [exact C5|].
    eapply carries_app; [exact C6|]. apply carries_nil.
  - split; [reflexivity|]. split; [reflexivity|]. split; [reflexivity|]. intros []; assumption.
Qed.
Lemma master_carry lb n b : master_ok lb b -> exists b', master_same b b' /\ forall stop st sb sb', mute st ->
  (forall x a e r, on_tag x = Some (t_master, a, e) -> st sb x r = read_master a sb r) ->
  add_item FMasterPage (Named n (BMaster b')) sb = Ok sb' -> carries lb stop st (master_calls n b) [opening FMasterPage (Named n (BMaster b))] sb sb'.
Proof.
  intros O. destruct (slots_carry lb (Some t_master) (mp_display b) (mp_page b) (mp_next b) b O) as (l & b' & C & E1 & E2 & E3 & E4).
  exists b'. split; [unfold master_same; auto|]. intros stop st sb sb' M St Add. unfold master_calls, opening. cbn [nm_body nm_name].
  change (lit "style:name") with k_name. change (lit "style:master-page") with t_master.
  set (al := CAttrEsc k_name n :: (if is_nil (mp_display b) then [] else [CAttrEsc (lit "style:display-name") (mp_display b)])
    ++ opt_attr (lit "style:page-layout-name") (mp_page b) ++ opt_attr (lit "style:next-style-name") (mp_next b)).
  assert (Gal : Forall good_attr al).
  { unfold al. apply Forall_cons; [name_lit|]. apply Forall_app. split; [destruct (is_nil (mp_display b)); [constructor|apply Forall_cons; [name_lit|constructor]]|].
    apply Forall_app. split; [destruct (mp_page b)|destruct (mp_next b)]; cbn [opt_attr]; try constructor; try name_lit; constructor. }
  match goal with |- carries _ _ _ _ [(_, ?a)] _ _ => replace a with (attrs_of al) end.
  2: { unfold al. destruct (mp_display b), (mp_page b), (mp_next b); reflexivity. }
  match goal with |- carries _ _ _ ?cs _ _ _ => match type of C with carries _ _ _ ?inner _ _ _ =>
    replace cs with (CElem t_master :: al ++ inner ++ [CEnd t_master]) end end.
  2: { unfold al. nf_app. reflexivity. }
  eapply carries_elem; [exact M|name_lit|exact Gal|exact C|]. intros E r R. rewrite (St _ _ false) by reflexivity. unfold read_master.
  replace (fold_left master_attr (attrs_of al) ([], mbody0)) with (n, MBody (mp_display b) (mp_page b) (mp_next b) hf_default hf_default hf_default hf_default hf_default hf_default)
    by (unfold al; destruct (mp_display b), (mp_page b), (mp_next b); reflexivity).
  rewrite R. cbn [bind fst snd]. rewrite Add. reflexivity.
Qed.
